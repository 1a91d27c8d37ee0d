(** * FuncTests: the project's own tests replayed on the model.

    These are tests of the model's faithfulness (examples on literals), not
    property proofs: every vector of tests/unit_tests/test_unit_utils.c and the
    conversations of tests/func_tests/*.c, transcribed mechanically. *)
From Verif Require Import Shell.

(** tests/func_tests/test_func.c:83-198, the files of the test tree. *)
Definition f_plain (name : bytes) : file := mkFile name None None None None None None.
Definition files_root : list file :=
  [mkFile (lit "test") (Some (lit "test file")) (Some (lit "nothing special" ++ CRLF))
          (Some (XUser 0)) None None None].
Definition files_data : list file :=
  [f_plain (lit "text"); f_plain (lit "text_file1"); f_plain (lit "text_file2");
   mkFile (lit "null") None None None (Some 0) (Some 0) None;
   mkFile (lit "buffer") None None None (Some 1) (Some 1) None;
   mkFile (lit "binary") None None None (Some 2) None None].
Definition files_dir111 : list file := [f_plain (lit "joke")].

(** tests/func_tests/test_func.c:72-81 *)
Definition test_desc : desc := mkDesc 256 256 256 (lit "test") None cfg_test.

Definition all_bytes : bytes := map ascii_of_nat (seq 0 256).

(** The callbacks of test_func.c:83-152; [buf] is the content of
    g_file_buffer_buf up to its size. *)
Definition test_env (buf : bytes) : env :=
  mkEnv (fun _ _ _ => [APrint (lit "test_exec_callback")])
        (fun cb _ => match cb with
                     | 0 => mkGet GUnset 0 []
                     | 1 => mkGet (GData buf) (length buf) []
                     | _ => mkGet (GData all_bytes) 256 []
                     end)
        (fun _ _ _ => [])
        (fun _ _ => []).

(** tests/func_tests/test_func.c:205-231; node 0 holds the built-in commands. *)
Definition mounts : list (bytes * nat * list file) :=
  [(lit "/", 1, files_root); (lit "/data", 2, files_data); (lit "/dir", 3, []);
   (lit "/dir/1", 4, []); (lit "/dir/2", 5, []); (lit "/dir/1/11", 6, []);
   (lit "/dir/1/11/111", 7, files_dir111); (lit "/dir/1/12", 8, []);
   (lit "/dir/1/13", 9, []); (lit "/dir/2/21", 10, []); (lit "/dir/2/21/211", 11, []);
   (lit "/dir/2/21/212", 12, [])].

Fixpoint mount_all (l : list (bytes * nat * list file)) (s : st) : res st :=
  match l with
  | [] => Ok s
  | (p, i, fs) :: r =>
      '(x, s) <- ush_node_mount p i fs s ;;
      match x with ST_OK => mount_all r s | _ => Err EAssert end
  end.

Definition blank : st :=
  st_zero test_desc 0 (repeat NUL 256) (repeat NUL 256) (repeat node_zero 16) [].

Definition world : res st :=
  s <- ush_init test_desc (repeat NUL 256) (repeat NUL 256) blank ;;
  mount_all mounts s.

(** test_func_read_all: service calls until one returns false, the read callback
    delivering [input]. *)
Fixpoint drive (fuel : nat) (e : env) (input : bytes) (s : st) : res st :=
  match fuel with
  | 0 => Err EDiverge
  | S f =>
      let i := mkIo (match input with c :: _ => Some c | [] => None end) true e in
      '(r, s') <- ush_service i s ;;
      let taken := length (ins (lg s')) - length (ins (lg s)) in
      if r : bool then drive f e (skipn taken input) s' else Ok s'
  end.

Inductive tstep :=
| Ask (input output : bytes)    (* TEST_FUNC_ASK *)
| Cd (path : bytes)             (* ush_node_set_current_dir *)
| Buf (b : bytes)               (* new content of g_file_buffer_buf *)
| Api (a : action)
| Again.                        (* tearDown(); setUp() *)

Definition clear_log (s : st) : st := set_lg [] s.

Fixpoint play_steps (l : list tstep) (buf : bytes) (s : st) : bool :=
  match l with
  | [] => true
  | Ask q r :: rest =>
      match drive 3000 (test_env buf) q (clear_log s) with
      | Ok s' => beq (outs (lg s')) r && play_steps rest buf s'
      | Err _ => false
      end
  | Cd p :: rest =>
      match ush_node_set_current_dir p s with
      | Ok (ST_OK, s') => play_steps rest buf s'
      | _ => false
      end
  | Buf b :: rest => play_steps rest b s
  | Api a :: rest =>
      match do_action [] a s with Ok s' => play_steps rest buf s' | Err _ => false end
  | Again :: rest =>
      match world with Ok s' =>
        match drive 3000 (test_env []) [] s' with
        | Ok s' => play_steps rest [] s' | Err _ => false end
      | Err _ => false end
  end.

Definition play (l : list tstep) : bool :=
  match world with
  | Ok s =>
      play_steps (Ask [] (lit "uShell 0.1.0" ++ CRLF ++ lit "[test /]$ ") :: l) [] s
  | Err _ => false
  end.

Definition is_str (r : res bytes) (t : bytes) : bool :=
  match r with Ok b => match c_str b 0 with Ok v => beq v t | Err _ => false end
             | Err _ => false end.
Definition is_last_arg (inp t : bytes) : bool :=
  match ush_utils_get_last_arg (inp ++ [NUL]) with
  | Ok o => match c_str (inp ++ [NUL]) o with Ok v => beq v t | Err _ => false end
  | Err _ => false
  end.
Definition at_dir (dir : bytes) (k : st -> bool) : bool :=
  match world with
  | Ok s => match ush_node_set_current_dir dir s with Ok (ST_OK, s) => k s | _ => false end
  | Err _ => false
  end.
Definition is_abs (dir inp t : bytes) : bool :=
  at_dir dir (fun s => match abs_path_str 256 (hp s) (o_cur s) inp with
                       | Ok v => beq v t | Err _ => false end).
Definition is_node (r : res (option nat)) (x : option nat) : bool :=
  match r, x with
  | Ok (Some a), Some b => a =? b
  | Ok None, None => true
  | _, _ => false
  end.
Definition is_file (dir name : bytes) (x : option file) : bool :=
  at_dir dir (fun s => match ush_file_find_by_name name s, x with
                       | Ok (Some a), Some b => beq (f_name a) (f_name b)
                       | Ok None, None => true
                       | _, _ => false end).

(** tests/func_tests/test_func_cmd_cat.c:41: "cat /data/null" reads an
    uninitialised pointer because that getter leaves it unset; the C test passes
    only because the value happens not to be NULL. *)
Example cat_null_uninitialised :
  (s <- world ;;
   s <- drive 3000 (test_env []) [] s ;;
   drive 3000 (test_env []) (lit "cat /data/null" ++ [LF]) s) = Err EUninit.
Proof. vm_compute. reflexivity. Qed.

Example test_input_empty : play [
  Ask (["010"%char]) (["010"%char] ++ lit "[test /]$ ")
] = true.
Proof. vm_compute. reflexivity. Qed.

Example test_input_error : play [
  Ask (lit "abcd" ++ ["010"%char]) (lit "abcd" ++ ["010"%char] ++ lit "error: syntax error" ++ CRLF ++ lit "[test /]$ ")
] = true.
Proof. vm_compute. reflexivity. Qed.

Example test_input_backspace : play [
  Ask (lit "test" ++ ["008"%char] ++ ["008"%char] ++ ["008"%char] ++ ["008"%char] ++ ["010"%char]) (lit "test" ++ ["008"%char] ++ lit " " ++ ["008"%char] ++ ["008"%char] ++ lit " " ++ ["008"%char] ++ ["008"%char] ++ lit " " ++ ["008"%char] ++ ["008"%char] ++ lit " " ++ ["008"%char] ++ ["010"%char] ++ lit "[test /]$ ");
  Ask (lit "pwx" ++ ["008"%char] ++ lit "d" ++ ["010"%char]) (lit "pwx" ++ ["008"%char] ++ lit " " ++ ["008"%char] ++ lit "d" ++ ["010"%char] ++ lit "/" ++ CRLF ++ lit "[test /]$ ");
  Ask (lit "t" ++ ["008"%char] ++ ["008"%char] ++ ["008"%char] ++ ["008"%char] ++ lit "pw" ++ ["008"%char] ++ lit "wd" ++ ["010"%char]) (lit "t" ++ ["008"%char] ++ lit " " ++ ["008"%char] ++ lit "pw" ++ ["008"%char] ++ lit " " ++ ["008"%char] ++ lit "wd" ++ ["010"%char] ++ lit "/" ++ CRLF ++ lit "[test /]$ ")
] = true.
Proof. vm_compute. reflexivity. Qed.

Example test_exec_ok : play [
  Ask (lit "test" ++ ["010"%char]) (lit "test" ++ ["010"%char] ++ lit "test_exec_callback" ++ CRLF ++ lit "[test /]$ ");
  Cd (lit "/dir/2/21");
  Ask (lit "../../../test" ++ ["010"%char]) (lit "../../../test" ++ ["010"%char] ++ lit "test_exec_callback" ++ CRLF ++ lit "[test 21]$ ");
  Ask (lit "./../../../test" ++ ["010"%char]) (lit "./../../../test" ++ ["010"%char] ++ lit "test_exec_callback" ++ CRLF ++ lit "[test 21]$ ");
  Ask (lit "/test" ++ ["010"%char]) (lit "/test" ++ ["010"%char] ++ lit "test_exec_callback" ++ CRLF ++ lit "[test 21]$ ")
] = true.
Proof. vm_compute. reflexivity. Qed.

Example test_exec_error : play [
  Ask (lit "/data/binary" ++ ["010"%char]) (lit "/data/binary" ++ ["010"%char] ++ lit "error: file not executable" ++ CRLF ++ lit "[test /]$ ");
  Ask (lit "data/binary" ++ ["010"%char]) (lit "data/binary" ++ ["010"%char] ++ lit "error: file not executable" ++ CRLF ++ lit "[test /]$ ");
  Ask (lit "data/bin" ++ ["010"%char]) (lit "data/bin" ++ ["010"%char] ++ lit "error: syntax error" ++ CRLF ++ lit "[test /]$ ")
] = true.
Proof. vm_compute. reflexivity. Qed.

Example test_cmd_cat_single : play [
  Buf (lit "test_data");
  Ask (lit "cat /data/buffer" ++ ["010"%char]) (lit "cat /data/buffer" ++ ["010"%char] ++ lit "test_data[test /]$ ");
  Buf (["001"%char] ++ ["002"%char] ++ lit "abcd" ++ ["003"%char] ++ ["255"%char]);
  Ask (lit "cat /data/buffer" ++ ["010"%char]) (lit "cat /data/buffer" ++ ["010"%char] ++ ["001"%char] ++ ["002"%char] ++ lit "abcd" ++ ["003"%char] ++ ["255"%char] ++ lit "[test /]$ ")
] = true.
Proof. vm_compute. reflexivity. Qed.

Example test_cmd_cat_multi : play [
  Buf (lit "test");
  Ask (lit "cat /data/buffer /data/buffer data/../dir/../data/buffer" ++ ["010"%char]) (lit "cat /data/buffer /data/buffer data/../dir/../data/buffer" ++ ["010"%char] ++ lit "testtesttest[test /]$ ")
] = true.
Proof. vm_compute. reflexivity. Qed.

Example test_cmd_cat_help : play [
  Ask (lit "help cat" ++ ["010"%char]) (lit "help cat" ++ ["010"%char] ++ lit "usage: cat <files...>" ++ CRLF ++ lit "[test /]$ ")
] = true.
Proof. vm_compute. reflexivity. Qed.

Example test_cmd_cat_error : play [
  Ask (lit "cat" ++ ["010"%char]) (lit "cat" ++ ["010"%char] ++ lit "error: wrong arguments" ++ CRLF ++ lit "[test /]$ ");
  Ask (lit "cat 1" ++ ["010"%char]) (lit "cat 1" ++ ["010"%char] ++ lit "error: file not found" ++ CRLF ++ lit "[test /]$ ");
  Ask (lit "cat test" ++ ["010"%char]) (lit "cat test" ++ ["010"%char] ++ lit "error: file not readable" ++ CRLF ++ lit "[test /]$ ");
  Ask (lit "cat /data/null 1" ++ ["010"%char]) (lit "cat /data/null 1" ++ ["010"%char] ++ lit "error: file not found" ++ CRLF ++ lit "[test /]$ ")
] = true.
Proof. vm_compute. reflexivity. Qed.

Example test_cmd_cd_abs : play [
  Ask (lit "cd /data" ++ ["010"%char]) (lit "cd /data" ++ ["010"%char] ++ lit "[test data]$ ");
  Ask (lit "cd /dir/1" ++ ["010"%char]) (lit "cd /dir/1" ++ ["010"%char] ++ lit "[test 1]$ ");
  Ask (lit "cd /dir/2/21" ++ ["010"%char]) (lit "cd /dir/2/21" ++ ["010"%char] ++ lit "[test 21]$ ");
  Ask (lit "cd /dir/../data" ++ ["010"%char]) (lit "cd /dir/../data" ++ ["010"%char] ++ lit "[test data]$ ");
  Ask (lit "cd /dir/../../../../../dir/1/12/../11" ++ ["010"%char]) (lit "cd /dir/../../../../../dir/1/12/../11" ++ ["010"%char] ++ lit "[test 11]$ ")
] = true.
Proof. vm_compute. reflexivity. Qed.

Example test_cmd_cd_rel : play [
  Ask (lit "cd data" ++ ["010"%char]) (lit "cd data" ++ ["010"%char] ++ lit "[test data]$ ");
  Ask (lit "cd ." ++ ["010"%char]) (lit "cd ." ++ ["010"%char] ++ lit "[test data]$ ");
  Ask (lit "cd ./../dir/2/21" ++ ["010"%char]) (lit "cd ./../dir/2/21" ++ ["010"%char] ++ lit "[test 21]$ ");
  Ask (lit "cd ../../../data" ++ ["010"%char]) (lit "cd ../../../data" ++ ["010"%char] ++ lit "[test data]$ ");
  Ask (lit "cd ../../../../../data" ++ ["010"%char]) (lit "cd ../../../../../data" ++ ["010"%char] ++ lit "[test data]$ ");
  Ask (lit "cd ././../../dir/1/12/../11" ++ ["010"%char]) (lit "cd ././../../dir/1/12/../11" ++ ["010"%char] ++ lit "[test 11]$ ")
] = true.
Proof. vm_compute. reflexivity. Qed.

Example test_cmd_cd_error : play [
  Ask (lit "cd" ++ ["010"%char]) (lit "cd" ++ ["010"%char] ++ lit "error: wrong arguments" ++ CRLF ++ lit "[test /]$ ");
  Ask (lit "cd 1 2" ++ ["010"%char]) (lit "cd 1 2" ++ ["010"%char] ++ lit "error: wrong arguments" ++ CRLF ++ lit "[test /]$ ");
  Ask (lit "cd test" ++ ["010"%char]) (lit "cd test" ++ ["010"%char] ++ lit "error: directory not found" ++ CRLF ++ lit "[test /]$ ");
  Ask (lit "cd di" ++ ["010"%char]) (lit "cd di" ++ ["010"%char] ++ lit "error: directory not found" ++ CRLF ++ lit "[test /]$ ")
] = true.
Proof. vm_compute. reflexivity. Qed.

Example test_cmd_cd_help : play [
  Ask (lit "help cd" ++ ["010"%char]) (lit "help cd" ++ ["010"%char] ++ lit "usage: cd <path>" ++ CRLF ++ lit "[test /]$ ")
] = true.
Proof. vm_compute. reflexivity. Qed.

Example test_cmd_echo_shell : play [
  Ask (lit "echo" ++ ["010"%char]) (lit "echo" ++ ["010"%char] ++ CRLF ++ lit "[test /]$ ");
  Ask (lit "echo abc" ++ ["010"%char]) (lit "echo abc" ++ ["010"%char] ++ lit "abc" ++ CRLF ++ lit "[test /]$ ");
  Ask (lit "echo ""a b c""" ++ ["010"%char]) (lit "echo ""a b c""" ++ ["010"%char] ++ lit "a b c" ++ CRLF ++ lit "[test /]$ ")
] = true.
Proof. vm_compute. reflexivity. Qed.

Example test_cmd_echo_error : play [
  Ask (lit "echo 1 2" ++ ["010"%char]) (lit "echo 1 2" ++ ["010"%char] ++ lit "error: wrong arguments" ++ CRLF ++ lit "[test /]$ ");
  Ask (lit "echo 1 2 3" ++ ["010"%char]) (lit "echo 1 2 3" ++ ["010"%char] ++ lit "error: wrong arguments" ++ CRLF ++ lit "[test /]$ ");
  Ask (lit "echo 1 > 2 3" ++ ["010"%char]) (lit "echo 1 > 2 3" ++ ["010"%char] ++ lit "error: wrong arguments" ++ CRLF ++ lit "[test /]$ ");
  Ask (lit "echo 1 > qwerty" ++ ["010"%char]) (lit "echo 1 > qwerty" ++ ["010"%char] ++ lit "error: file not found" ++ CRLF ++ lit "[test /]$ ");
  Ask (lit "echo ""a b c"" > qwerty" ++ ["010"%char]) (lit "echo ""a b c"" > qwerty" ++ ["010"%char] ++ lit "error: file not found" ++ CRLF ++ lit "[test /]$ ");
  Ask (lit "echo abc > /test" ++ ["010"%char]) (lit "echo abc > /test" ++ ["010"%char] ++ lit "error: file not writable" ++ CRLF ++ lit "[test /]$ ");
  Ask (lit "echo abc > test" ++ ["010"%char]) (lit "echo abc > test" ++ ["010"%char] ++ lit "error: file not writable" ++ CRLF ++ lit "[test /]$ ")
] = true.
Proof. vm_compute. reflexivity. Qed.

Example test_cmd_echo_help : play [
  Ask (lit "help echo" ++ ["010"%char]) (lit "help echo" ++ ["010"%char] ++ lit "usage: echo <string> > <file>" ++ CRLF ++ lit "       echo [string]" ++ CRLF ++ lit "       * can be ascii-hex encoded string with \xNN format." ++ CRLF ++ lit "[test /]$ ")
] = true.
Proof. vm_compute. reflexivity. Qed.

Example test_cmd_echo_redirect : play [
  Ask (lit "echo abc > /data/null" ++ ["010"%char]) (lit "echo abc > /data/null" ++ ["010"%char] ++ lit "[test /]$ ");
  Ask (lit "echo abc > /data/buffer" ++ ["010"%char]) (lit "echo abc > /data/buffer" ++ ["010"%char] ++ lit "[test /]$ ");
  Cd (lit "/data");
  Ask (lit "echo ""xy"" > buffer" ++ ["010"%char]) (lit "echo ""xy"" > buffer" ++ ["010"%char] ++ lit "[test data]$ ");
  Ask (lit "echo ""qwe rty"" > ./buffer" ++ ["010"%char]) (lit "echo ""qwe rty"" > ./buffer" ++ ["010"%char] ++ lit "[test data]$ ");
  Ask (lit "echo ""\x00a cd\x00\xAA"" > ./buffer" ++ ["010"%char]) (lit "echo ""\x00a cd\x00\xAA"" > ./buffer" ++ ["010"%char] ++ lit "[test data]$ ");
  Ask (lit "echo aaaaaaaaaaaaaaaaaaaaaaaaaaaaaaaaaaaaaaaaaaaaaaaaaaaaaaaaaaaaaaaaaaaaaaaaaaaaaaaaaaaaaaaaaaaaaaaaaaaaaaaaaaaaaaaaaaaaaaaaaaaaaaaaq > buffer" ++ ["010"%char]) (lit "echo aaaaaaaaaaaaaaaaaaaaaaaaaaaaaaaaaaaaaaaaaaaaaaaaaaaaaaaaaaaaaaaaaaaaaaaaaaaaaaaaaaaaaaaaaaaaaaaaaaaaaaaaaaaaaaaaaaaaaaaaaaaaaaaaq > buffer" ++ ["010"%char] ++ lit "[test data]$ ")
] = true.
Proof. vm_compute. reflexivity. Qed.

Example test_cmd_help_self : play [
  Ask (lit "help" ++ ["010"%char]) (lit "help" ++ ["010"%char] ++ lit "help             - list available commands" ++ CRLF ++ lit "ls               - list directory content" ++ CRLF ++ lit "cd               - change current directory" ++ CRLF ++ lit "pwd              - print current directory" ++ CRLF ++ lit "cat              - print files content" ++ CRLF ++ lit "xxd              - dump file hex content" ++ CRLF ++ lit "echo             - print string to file" ++ CRLF ++ lit "[test /]$ ")
] = true.
Proof. vm_compute. reflexivity. Qed.

Example test_cmd_help_help : play [
  Ask (lit "help help" ++ ["010"%char]) (lit "help help" ++ ["010"%char] ++ lit "usage: help [file]" ++ CRLF ++ lit "[test /]$ ")
] = true.
Proof. vm_compute. reflexivity. Qed.

Example test_cmd_help_error : play [
  Ask (lit "help help abc" ++ ["010"%char]) (lit "help help abc" ++ ["010"%char] ++ lit "error: wrong arguments" ++ CRLF ++ lit "[test /]$ ");
  Ask (lit "help hel" ++ ["010"%char]) (lit "help hel" ++ ["010"%char] ++ lit "error: file not found" ++ CRLF ++ lit "[test /]$ ");
  Ask (lit "help /data/binary" ++ ["010"%char]) (lit "help /data/binary" ++ ["010"%char] ++ lit "error: no help available" ++ CRLF ++ lit "[test /]$ ")
] = true.
Proof. vm_compute. reflexivity. Qed.

Example test_cmd_help_file : play [
  Ask (lit "help ./test" ++ ["010"%char]) (lit "help ./test" ++ ["010"%char] ++ lit "nothing special" ++ CRLF ++ lit "[test /]$ ")
] = true.
Proof. vm_compute. reflexivity. Qed.

Example test_cmd_ls_current : play [
  Ask (lit "ls" ++ ["010"%char]) (lit "ls" ++ ["010"%char] ++ lit "d---- ." ++ CRLF ++ lit "d---- dir/" ++ CRLF ++ lit "d---- data/" ++ CRLF ++ lit "---xh test             - test file" ++ CRLF ++ lit "[test /]$ ");
  Cd (lit "/data");
  Ask (lit "ls" ++ ["010"%char]) (lit "ls" ++ ["010"%char] ++ lit "d---- ." ++ CRLF ++ lit "d---- .." ++ CRLF ++ lit "----- text" ++ CRLF ++ lit "----- text_file1" ++ CRLF ++ lit "----- text_file2" ++ CRLF ++ lit "-rw-- null" ++ CRLF ++ lit "-rw-- buffer" ++ CRLF ++ lit "-r--- binary" ++ CRLF ++ lit "[test data]$ ");
  Cd (lit "/dir");
  Ask (lit "ls" ++ ["010"%char]) (lit "ls" ++ ["010"%char] ++ lit "d---- ." ++ CRLF ++ lit "d---- .." ++ CRLF ++ lit "d---- 2/" ++ CRLF ++ lit "d---- 1/" ++ CRLF ++ lit "[test dir]$ ")
] = true.
Proof. vm_compute. reflexivity. Qed.

Example test_cmd_ls_abs : play [
  Ask (lit "ls /dir/1" ++ ["010"%char]) (lit "ls /dir/1" ++ ["010"%char] ++ lit "d---- ." ++ CRLF ++ lit "d---- .." ++ CRLF ++ lit "d---- 13/" ++ CRLF ++ lit "d---- 12/" ++ CRLF ++ lit "d---- 11/" ++ CRLF ++ lit "[test /]$ ");
  Ask (lit "ls /dir/../" ++ ["010"%char]) (lit "ls /dir/../" ++ ["010"%char] ++ lit "d---- ." ++ CRLF ++ lit "d---- dir/" ++ CRLF ++ lit "d---- data/" ++ CRLF ++ lit "---xh test             - test file" ++ CRLF ++ lit "[test /]$ ");
  Cd (lit "/dir/1/11/111");
  Ask (lit "ls /dir/1" ++ ["010"%char]) (lit "ls /dir/1" ++ ["010"%char] ++ lit "d---- ." ++ CRLF ++ lit "d---- .." ++ CRLF ++ lit "d---- 13/" ++ CRLF ++ lit "d---- 12/" ++ CRLF ++ lit "d---- 11/" ++ CRLF ++ lit "[test 111]$ ");
  Ask (lit "ls /dir/../" ++ ["010"%char]) (lit "ls /dir/../" ++ ["010"%char] ++ lit "d---- ." ++ CRLF ++ lit "d---- dir/" ++ CRLF ++ lit "d---- data/" ++ CRLF ++ lit "---xh test             - test file" ++ CRLF ++ lit "[test 111]$ ")
] = true.
Proof. vm_compute. reflexivity. Qed.

Example test_cmd_ls_rel : play [
  Ask (lit "ls .." ++ ["010"%char]) (lit "ls .." ++ ["010"%char] ++ lit "d---- ." ++ CRLF ++ lit "d---- dir/" ++ CRLF ++ lit "d---- data/" ++ CRLF ++ lit "---xh test             - test file" ++ CRLF ++ lit "[test /]$ ");
  Ask (lit "ls ./../../.." ++ ["010"%char]) (lit "ls ./../../.." ++ ["010"%char] ++ lit "d---- ." ++ CRLF ++ lit "d---- dir/" ++ CRLF ++ lit "d---- data/" ++ CRLF ++ lit "---xh test             - test file" ++ CRLF ++ lit "[test /]$ ");
  Ask (lit "ls ./../" ++ ["010"%char]) (lit "ls ./../" ++ ["010"%char] ++ lit "d---- ." ++ CRLF ++ lit "d---- dir/" ++ CRLF ++ lit "d---- data/" ++ CRLF ++ lit "---xh test             - test file" ++ CRLF ++ lit "[test /]$ ");
  Ask (lit "ls dir/.." ++ ["010"%char]) (lit "ls dir/.." ++ ["010"%char] ++ lit "d---- ." ++ CRLF ++ lit "d---- dir/" ++ CRLF ++ lit "d---- data/" ++ CRLF ++ lit "---xh test             - test file" ++ CRLF ++ lit "[test /]$ ");
  Ask (lit "ls dir/../dir/1" ++ ["010"%char]) (lit "ls dir/../dir/1" ++ ["010"%char] ++ lit "d---- ." ++ CRLF ++ lit "d---- .." ++ CRLF ++ lit "d---- 13/" ++ CRLF ++ lit "d---- 12/" ++ CRLF ++ lit "d---- 11/" ++ CRLF ++ lit "[test /]$ ");
  Cd (lit "/dir/1/11/111");
  Ask (lit "ls .." ++ ["010"%char]) (lit "ls .." ++ ["010"%char] ++ lit "d---- ." ++ CRLF ++ lit "d---- .." ++ CRLF ++ lit "d---- 111/" ++ CRLF ++ lit "[test 111]$ ");
  Ask (lit "ls ../../../../data" ++ ["010"%char]) (lit "ls ../../../../data" ++ ["010"%char] ++ lit "d---- ." ++ CRLF ++ lit "d---- .." ++ CRLF ++ lit "----- text" ++ CRLF ++ lit "----- text_file1" ++ CRLF ++ lit "----- text_file2" ++ CRLF ++ lit "-rw-- null" ++ CRLF ++ lit "-rw-- buffer" ++ CRLF ++ lit "-r--- binary" ++ CRLF ++ lit "[test 111]$ ");
  Ask (lit "ls" ++ ["010"%char]) (lit "ls" ++ ["010"%char] ++ lit "d---- ." ++ CRLF ++ lit "d---- .." ++ CRLF ++ lit "----- joke" ++ CRLF ++ lit "[test 111]$ ")
] = true.
Proof. vm_compute. reflexivity. Qed.

Example test_cmd_ls_error : play [
  Ask (lit "ls 1 2" ++ ["010"%char]) (lit "ls 1 2" ++ ["010"%char] ++ lit "error: wrong arguments" ++ CRLF ++ lit "[test /]$ ");
  Ask (lit "ls /test" ++ ["010"%char]) (lit "ls /test" ++ ["010"%char] ++ lit "error: directory not found" ++ CRLF ++ lit "[test /]$ ");
  Ask (lit "ls di" ++ ["010"%char]) (lit "ls di" ++ ["010"%char] ++ lit "error: directory not found" ++ CRLF ++ lit "[test /]$ ")
] = true.
Proof. vm_compute. reflexivity. Qed.

Example test_cmd_ls_help : play [
  Ask (lit "help ls" ++ ["010"%char]) (lit "help ls" ++ ["010"%char] ++ lit "usage: ls [path]" ++ CRLF ++ lit "[test /]$ ")
] = true.
Proof. vm_compute. reflexivity. Qed.

Example test_cmd_pwd_root : play [
  Ask (lit "pwd" ++ ["010"%char]) (lit "pwd" ++ ["010"%char] ++ lit "/" ++ CRLF ++ lit "[test /]$ ")
] = true.
Proof. vm_compute. reflexivity. Qed.

Example test_cmd_pwd_misc : play [
  Cd (lit "/data");
  Ask (lit "pwd" ++ ["010"%char]) (lit "pwd" ++ ["010"%char] ++ lit "/data" ++ CRLF ++ lit "[test data]$ ");
  Cd (lit "/dir/1/11/111");
  Ask (lit "pwd" ++ ["010"%char]) (lit "pwd" ++ ["010"%char] ++ lit "/dir/1/11/111" ++ CRLF ++ lit "[test 111]$ ");
  Cd (lit "/dir/2/21");
  Ask (lit "pwd" ++ ["010"%char]) (lit "pwd" ++ ["010"%char] ++ lit "/dir/2/21" ++ CRLF ++ lit "[test 21]$ ")
] = true.
Proof. vm_compute. reflexivity. Qed.

Example test_cmd_pwd_error : play [
  Ask (lit "pwd 1" ++ ["010"%char]) (lit "pwd 1" ++ ["010"%char] ++ lit "error: wrong arguments" ++ CRLF ++ lit "[test /]$ ")
] = true.
Proof. vm_compute. reflexivity. Qed.

Example test_cmd_pwd_help : play [
  Ask (lit "help pwd" ++ ["010"%char]) (lit "help pwd" ++ ["010"%char] ++ lit "usage: pwd" ++ CRLF ++ lit "[test /]$ ")
] = true.
Proof. vm_compute. reflexivity. Qed.

Example test_cmd_xxd : play [
  Ask (lit "xxd /data/null" ++ ["010"%char]) (lit "xxd /data/null" ++ ["010"%char] ++ lit "00000000:                                  " ++ CRLF ++ lit "[test /]$ ");
  Buf (lit "abcdefg");
  Ask (lit "xxd /data/buffer" ++ ["010"%char]) (lit "xxd /data/buffer" ++ ["010"%char] ++ lit "00000000: 61 62 63 64 65 66 67     abcdefg " ++ CRLF ++ lit "[test /]$ ");
  Buf (lit "abcdefgh");
  Ask (lit "xxd /data/buffer" ++ ["010"%char]) (lit "xxd /data/buffer" ++ ["010"%char] ++ lit "00000000: 61 62 63 64 65 66 67 68  abcdefgh" ++ CRLF ++ lit "[test /]$ ");
  Buf (lit "abcdefghi");
  Ask (lit "xxd /data/buffer" ++ ["010"%char]) (lit "xxd /data/buffer" ++ ["010"%char] ++ lit "00000000: 61 62 63 64 65 66 67 68  abcdefgh" ++ CRLF ++ lit "00000008: 69                       i       " ++ CRLF ++ lit "[test /]$ ");
  Ask (lit "xxd /data/binary" ++ ["010"%char]) (lit "xxd /data/binary" ++ ["010"%char] ++ lit "00000000: 00 01 02 03 04 05 06 07  ........" ++ CRLF ++ lit "00000008: 08 09 0A 0B 0C 0D 0E 0F  ........" ++ CRLF ++ lit "00000010: 10 11 12 13 14 15 16 17  ........" ++ CRLF ++ lit "00000018: 18 19 1A 1B 1C 1D 1E 1F  ........" ++ CRLF ++ lit "00000020: 20 21 22 23 24 25 26 27   !""#$%&'" ++ CRLF ++ lit "00000028: 28 29 2A 2B 2C 2D 2E 2F  ()*+,-./" ++ CRLF ++ lit "00000030: 30 31 32 33 34 35 36 37  01234567" ++ CRLF ++ lit "00000038: 38 39 3A 3B 3C 3D 3E 3F  89:;<=>?" ++ CRLF ++ lit "00000040: 40 41 42 43 44 45 46 47  @ABCDEFG" ++ CRLF ++ lit "00000048: 48 49 4A 4B 4C 4D 4E 4F  HIJKLMNO" ++ CRLF ++ lit "00000050: 50 51 52 53 54 55 56 57  PQRSTUVW" ++ CRLF ++ lit "00000058: 58 59 5A 5B 5C 5D 5E 5F  XYZ[\]^_" ++ CRLF ++ lit "00000060: 60 61 62 63 64 65 66 67  `abcdefg" ++ CRLF ++ lit "00000068: 68 69 6A 6B 6C 6D 6E 6F  hijklmno" ++ CRLF ++ lit "00000070: 70 71 72 73 74 75 76 77  pqrstuvw" ++ CRLF ++ lit "00000078: 78 79 7A 7B 7C 7D 7E 7F  xyz{|}~." ++ CRLF ++ lit "00000080: 80 81 82 83 84 85 86 87  ........" ++ CRLF ++ lit "00000088: 88 89 8A 8B 8C 8D 8E 8F  ........" ++ CRLF ++ lit "00000090: 90 91 92 93 94 95 96 97  ........" ++ CRLF ++ lit "00000098: 98 99 9A 9B 9C 9D 9E 9F  ........" ++ CRLF ++ lit "000000A0: A0 A1 A2 A3 A4 A5 A6 A7  ........" ++ CRLF ++ lit "000000A8: A8 A9 AA AB AC AD AE AF  ........" ++ CRLF ++ lit "000000B0: B0 B1 B2 B3 B4 B5 B6 B7  ........" ++ CRLF ++ lit "000000B8: B8 B9 BA BB BC BD BE BF  ........" ++ CRLF ++ lit "000000C0: C0 C1 C2 C3 C4 C5 C6 C7  ........" ++ CRLF ++ lit "000000C8: C8 C9 CA CB CC CD CE CF  ........" ++ CRLF ++ lit "000000D0: D0 D1 D2 D3 D4 D5 D6 D7  ........" ++ CRLF ++ lit "000000D8: D8 D9 DA DB DC DD DE DF  ........" ++ CRLF ++ lit "000000E0: E0 E1 E2 E3 E4 E5 E6 E7  ........" ++ CRLF ++ lit "000000E8: E8 E9 EA EB EC ED EE EF  ........" ++ CRLF ++ lit "000000F0: F0 F1 F2 F3 F4 F5 F6 F7  ........" ++ CRLF ++ lit "000000F8: F8 F9 FA FB FC FD FE FF  ........" ++ CRLF ++ lit "[test /]$ ")
] = true.
Proof. vm_compute. reflexivity. Qed.

Example test_cmd_xxd_help : play [
  Ask (lit "help xxd" ++ ["010"%char]) (lit "help xxd" ++ ["010"%char] ++ lit "usage: xxd <file>" ++ CRLF ++ lit "[test /]$ ")
] = true.
Proof. vm_compute. reflexivity. Qed.

Example test_cmd_xxd_error : play [
  Ask (lit "xxd" ++ ["010"%char]) (lit "xxd" ++ ["010"%char] ++ lit "error: wrong arguments" ++ CRLF ++ lit "[test /]$ ");
  Ask (lit "xxd 1" ++ ["010"%char]) (lit "xxd 1" ++ ["010"%char] ++ lit "error: file not found" ++ CRLF ++ lit "[test /]$ ");
  Ask (lit "xxd test" ++ ["010"%char]) (lit "xxd test" ++ ["010"%char] ++ lit "error: file not readable" ++ CRLF ++ lit "[test /]$ ");
  Ask (lit "xxd /data/null 1" ++ ["010"%char]) (lit "xxd /data/null 1" ++ ["010"%char] ++ lit "error: wrong arguments" ++ CRLF ++ lit "[test /]$ ")
] = true.
Proof. vm_compute. reflexivity. Qed.

Example test_autocomp_full : play [
  Ask (["009"%char]) (CRLF ++ lit "help" ++ CRLF ++ lit "ls" ++ CRLF ++ lit "cd" ++ CRLF ++ lit "pwd" ++ CRLF ++ lit "cat" ++ CRLF ++ lit "xxd" ++ CRLF ++ lit "echo" ++ CRLF ++ lit "test" ++ CRLF ++ lit "dir" ++ CRLF ++ lit "data" ++ CRLF ++ lit "[test /]$ ")
] = true.
Proof. vm_compute. reflexivity. Qed.

Example test_autocomp_part : play [
  Ask (lit "d" ++ ["009"%char]) (lit "d" ++ CRLF ++ lit "dir" ++ CRLF ++ lit "data" ++ CRLF ++ lit "[test /]$ d")
] = true.
Proof. vm_compute. reflexivity. Qed.

Example test_autocomp_finish : play [
  Ask (lit "da" ++ ["009"%char]) (lit "data");
  Again;
  Ask (lit "h" ++ ["009"%char]) (lit "help");
  Again;
  Ask (lit "di" ++ ["009"%char]) (lit "dir");
  Again;
  Ask (lit "p" ++ ["009"%char] ++ ["010"%char]) (lit "pwd" ++ ["010"%char] ++ lit "/" ++ CRLF ++ lit "[test /]$ ")
] = true.
Proof. vm_compute. reflexivity. Qed.

Example test_autocomp_unknown : play [
  Ask (lit "q" ++ ["009"%char]) (lit "q")
] = true.
Proof. vm_compute. reflexivity. Qed.

Example test_autocomp_args : play [
  Ask (lit "abcd d" ++ ["009"%char]) (lit "abcd d" ++ CRLF ++ lit "dir" ++ CRLF ++ lit "data" ++ CRLF ++ lit "[test /]$ abcd d");
  Ask (lit "i" ++ ["009"%char]) (lit "ir");
  Again;
  Cd (lit "/dir");
  Ask (["009"%char]) (CRLF ++ lit "help" ++ CRLF ++ lit "ls" ++ CRLF ++ lit "cd" ++ CRLF ++ lit "pwd" ++ CRLF ++ lit "cat" ++ CRLF ++ lit "xxd" ++ CRLF ++ lit "echo" ++ CRLF ++ lit "2" ++ CRLF ++ lit "1" ++ CRLF ++ lit "[test dir]$ ");
  Ask (lit "qwe qwe   pw" ++ ["009"%char]) (lit "qwe qwe   pwd");
  Ask (["009"%char]) ([]);
  Ask (lit " " ++ ["009"%char]) (lit " " ++ CRLF ++ lit "help" ++ CRLF ++ lit "ls" ++ CRLF ++ lit "cd" ++ CRLF ++ lit "pwd" ++ CRLF ++ lit "cat" ++ CRLF ++ lit "xxd" ++ CRLF ++ lit "echo" ++ CRLF ++ lit "2" ++ CRLF ++ lit "1" ++ CRLF ++ lit "[test dir]$ qwe qwe   pwd ")
] = true.
Proof. vm_compute. reflexivity. Qed.

Example test_autocomp_complex : play [
  Cd (lit "/data");
  Ask (lit "te" ++ ["009"%char]) (lit "text");
  Ask (["009"%char]) (CRLF ++ lit "text" ++ CRLF ++ lit "text_file1" ++ CRLF ++ lit "text_file2" ++ CRLF ++ lit "[test data]$ text");
  Ask (lit "_" ++ ["009"%char]) (lit "_file");
  Ask (["009"%char]) (CRLF ++ lit "text_file1" ++ CRLF ++ lit "text_file2" ++ CRLF ++ lit "[test data]$ text_file")
] = true.
Proof. vm_compute. reflexivity. Qed.

Example unit_utils : forallb (fun b => b) [
  (ush_utils_get_path_levels_count ([]) =? 0);
  (ush_utils_get_path_levels_count (lit "/") =? 0);
  (ush_utils_get_path_levels_count (lit " /") =? 2);
  (ush_utils_get_path_levels_count (lit " / ") =? 2);
  (ush_utils_get_path_levels_count (lit "test") =? 1);
  (ush_utils_get_path_levels_count (lit "test/") =? 2);
  (ush_utils_get_path_levels_count (lit "test/abc") =? 2);
  (ush_utils_get_path_levels_count (lit "test/abc/") =? 3);
  (ush_utils_get_path_levels_count (lit "/test") =? 1);
  (ush_utils_get_path_levels_count (lit "/test/") =? 2);
  (ush_utils_get_path_levels_count (lit "/test/abc") =? 2);
  (ush_utils_get_path_levels_count (lit "/test/abc/") =? 3);
  (ush_utils_get_path_levels_count (lit "/test/../qwerty") =? 3);
  (ush_utils_get_path_levels_count (lit "/test/../qwerty/") =? 4);
  (ush_utils_get_path_levels_count (lit "/test/../qwerty") =? 3);
  (ush_utils_get_path_levels_count (lit "/test/../qwerty/") =? 4);
  is_str (ush_utils_get_collapse_path (([]) ++ [NUL]) (local_array 64)) (lit "/");
  is_str (ush_utils_get_collapse_path ((lit "/") ++ [NUL]) (local_array 64)) (lit "/");
  is_str (ush_utils_get_collapse_path ((lit "test") ++ [NUL]) (local_array 64)) (lit "/");
  is_str (ush_utils_get_collapse_path ((lit "test/") ++ [NUL]) (local_array 64)) (lit "/");
  is_str (ush_utils_get_collapse_path ((lit "/test") ++ [NUL]) (local_array 64)) (lit "/test");
  is_str (ush_utils_get_collapse_path ((lit "/test/") ++ [NUL]) (local_array 64)) (lit "/test/");
  is_str (ush_utils_get_collapse_path ((lit "test/abc") ++ [NUL]) (local_array 64)) (lit "/abc");
  is_str (ush_utils_get_collapse_path ((lit "test/abc/") ++ [NUL]) (local_array 64)) (lit "/abc/");
  is_str (ush_utils_get_collapse_path ((lit "/test/abc") ++ [NUL]) (local_array 64)) (lit "/test/abc");
  is_str (ush_utils_get_collapse_path ((lit "/test/abc/") ++ [NUL]) (local_array 64)) (lit "/test/abc/");
  is_str (ush_utils_get_collapse_path ((lit "../test") ++ [NUL]) (local_array 64)) (lit "/test");
  is_str (ush_utils_get_collapse_path ((lit "/../test") ++ [NUL]) (local_array 64)) (lit "/test");
  is_str (ush_utils_get_collapse_path ((lit "/test/..") ++ [NUL]) (local_array 64)) (lit "/");
  is_str (ush_utils_get_collapse_path ((lit "../test/..") ++ [NUL]) (local_array 64)) (lit "/");
  is_str (ush_utils_get_collapse_path ((lit "../test/../") ++ [NUL]) (local_array 64)) (lit "/");
  is_str (ush_utils_get_collapse_path ((lit "../test/../abc") ++ [NUL]) (local_array 64)) (lit "/abc");
  is_str (ush_utils_get_collapse_path ((lit "../test/../abc/") ++ [NUL]) (local_array 64)) (lit "/abc/");
  is_str (ush_utils_get_collapse_path ((lit "./") ++ [NUL]) (local_array 64)) (lit "/");
  is_str (ush_utils_get_collapse_path ((lit "./test") ++ [NUL]) (local_array 64)) (lit "/test");
  is_str (ush_utils_get_collapse_path ((lit "/test/./abc") ++ [NUL]) (local_array 64)) (lit "/test/abc");
  is_str (ush_utils_get_collapse_path ((lit "/test//") ++ [NUL]) (local_array 64)) (lit "/test//");
  is_str (ush_utils_get_collapse_path ((lit "/test//abc") ++ [NUL]) (local_array 64)) (lit "/test//abc");
  is_str (ush_utils_get_collapse_path ((lit "/test///abc") ++ [NUL]) (local_array 64)) (lit "/test///abc");
  is_str (ush_utils_get_collapse_path ((lit "//") ++ [NUL]) (local_array 64)) (lit "//");
  is_str (ush_utils_get_collapse_path ((lit "///test") ++ [NUL]) (local_array 64)) (lit "///test");
  is_str (ush_utils_path_upper (([]) ++ [NUL])) ([]);
  is_str (ush_utils_path_upper ((lit "/") ++ [NUL])) ([]);
  is_str (ush_utils_path_upper ((lit "/test") ++ [NUL])) (lit "/");
  is_str (ush_utils_path_upper ((lit "/test/") ++ [NUL])) (lit "/test");
  is_str (ush_utils_path_upper ((lit "test") ++ [NUL])) (lit "test");
  is_str (ush_utils_path_upper ((lit "test/") ++ [NUL])) (lit "test");
  is_str (ush_utils_path_upper ((lit "test/abc") ++ [NUL])) (lit "test");
  is_str (ush_utils_path_upper ((lit "test/abc/xyz") ++ [NUL])) (lit "test/abc");
  is_str (ush_utils_path_upper ((lit "/test/abc") ++ [NUL])) (lit "/test");
  is_str (ush_utils_path_upper ((lit "/test/abc/") ++ [NUL])) (lit "/test/abc");
  is_str (ush_utils_path_upper ((lit "/test/abc/qwerty") ++ [NUL])) (lit "/test/abc");
  beq (ush_utils_path_last ([])) ([]);
  beq (ush_utils_path_last (lit "/")) (lit "/");
  beq (ush_utils_path_last (lit "/test")) (lit "test");
  beq (ush_utils_path_last (lit "test/")) ([]);
  beq (ush_utils_path_last (lit "test/abc")) (lit "abc");
  beq (ush_utils_path_last (lit "/test/abc")) (lit "abc");
  beq (ush_utils_path_last (lit "xyz/test/abc")) (lit "abc");
  beq (ush_utils_path_last (lit "/test/abc/qwerty")) (lit "qwerty");
  beq (ush_utils_path_last (lit "xyz/test/abc/")) ([]);
  is_str (ush_utils_get_path_level 0 ([]) (local_array 64)) (lit "/");
  is_str (ush_utils_get_path_level 1 ([]) (local_array 64)) ([]);
  is_str (ush_utils_get_path_level 2 ([]) (local_array 64)) ([]);
  is_str (ush_utils_get_path_level 0 (lit "test") (local_array 64)) (lit "/");
  is_str (ush_utils_get_path_level 1 (lit "test") (local_array 64)) (lit "test");
  is_str (ush_utils_get_path_level 2 (lit "test") (local_array 64)) (lit "test");
  is_str (ush_utils_get_path_level 0 (lit "test/") (local_array 64)) (lit "/");
  is_str (ush_utils_get_path_level 1 (lit "test/") (local_array 64)) (lit "test");
  is_str (ush_utils_get_path_level 2 (lit "test/") (local_array 64)) (lit "test/");
  is_str (ush_utils_get_path_level 0 (lit "test/abc") (local_array 64)) (lit "/");
  is_str (ush_utils_get_path_level 1 (lit "test/abc") (local_array 64)) (lit "test");
  is_str (ush_utils_get_path_level 2 (lit "test/abc") (local_array 64)) (lit "test/abc");
  is_str (ush_utils_get_path_level 0 (lit "test/abc/") (local_array 64)) (lit "/");
  is_str (ush_utils_get_path_level 1 (lit "test/abc/") (local_array 64)) (lit "test");
  is_str (ush_utils_get_path_level 2 (lit "test/abc/") (local_array 64)) (lit "test/abc");
  is_str (ush_utils_get_path_level 0 (lit "/test") (local_array 64)) (lit "/");
  is_str (ush_utils_get_path_level 1 (lit "/test") (local_array 64)) (lit "/test");
  is_str (ush_utils_get_path_level 2 (lit "/test") (local_array 64)) (lit "/test");
  is_str (ush_utils_get_path_level 0 (lit "/test/") (local_array 64)) (lit "/");
  is_str (ush_utils_get_path_level 1 (lit "/test/") (local_array 64)) (lit "/test");
  is_str (ush_utils_get_path_level 2 (lit "/test/") (local_array 64)) (lit "/test/");
  is_str (ush_utils_get_path_level 0 (lit "/test/abc") (local_array 64)) (lit "/");
  is_str (ush_utils_get_path_level 1 (lit "/test/abc") (local_array 64)) (lit "/test");
  is_str (ush_utils_get_path_level 2 (lit "/test/abc") (local_array 64)) (lit "/test/abc");
  is_str (ush_utils_get_path_level 0 (lit "/test/abc/") (local_array 64)) (lit "/");
  is_str (ush_utils_get_path_level 1 (lit "/test/abc/") (local_array 64)) (lit "/test");
  is_str (ush_utils_get_path_level 2 (lit "/test/abc/") (local_array 64)) (lit "/test/abc");
  is_str (ush_utils_join_path ([]) ([]) (local_array 64)) (lit "/");
  is_str (ush_utils_join_path ([]) (lit "/") (local_array 64)) (lit "//");
  is_str (ush_utils_join_path ([]) (lit "/test") (local_array 64)) (lit "//test");
  is_str (ush_utils_join_path ([]) (lit "test") (local_array 64)) (lit "/test");
  is_str (ush_utils_join_path (lit "/") ([]) (local_array 64)) (lit "/");
  is_str (ush_utils_join_path (lit "/") (lit "abc") (local_array 64)) (lit "/abc");
  is_str (ush_utils_join_path (lit "/") (lit "/abc") (local_array 64)) (lit "//abc");
  is_str (ush_utils_join_path (lit "/") (lit "abc/") (local_array 64)) (lit "/abc/");
  is_str (ush_utils_join_path (lit "/test") ([]) (local_array 64)) (lit "/test/");
  is_str (ush_utils_join_path (lit "test") ([]) (local_array 64)) (lit "test/");
  is_str (ush_utils_join_path (lit "/test") (lit "abc") (local_array 64)) (lit "/test/abc");
  is_str (ush_utils_join_path (lit "/test") (lit "/abc") (local_array 64)) (lit "/test//abc");
  is_str (ush_utils_join_path (lit "/test/") (lit "abc") (local_array 64)) (lit "/test//abc");
  is_last_arg ([]) ([]);
  is_last_arg (lit "   ") ([]);
  is_last_arg (lit "test") (lit "test");
  is_last_arg (lit "   test") (lit "test");
  is_last_arg (lit "test ") ([]);
  is_last_arg (lit "test abc") (lit "abc");
  is_last_arg (lit "test    abc") (lit "abc");
  is_last_arg (lit "test    abc  ") ([]);
  is_last_arg (lit "test abc xyz") (lit "xyz");
  is_last_arg (lit "test abc xyz   ") ([]);
  Bool.eqb (ush_utils_startswith (lit "test") ([])) true;
  Bool.eqb (ush_utils_startswith (lit "test") (lit "te")) true;
  Bool.eqb (ush_utils_startswith (lit "test") (lit "test")) true;
  Bool.eqb (ush_utils_startswith (lit "test") (lit "test/")) false;
  Bool.eqb (ush_utils_startswith ([]) ([])) true;
  Bool.eqb (ush_utils_startswith ([]) (lit "te")) false;
  Bool.eqb (ush_utils_startswith ([]) (lit "test")) false;
  Bool.eqb (ush_utils_startswith (lit " test") (lit "test")) false;
  Bool.eqb (ush_utils_startswith (lit "test") (lit " test")) false
] = true.
Proof. vm_compute. reflexivity. Qed.

Example test_node_abs : forallb (fun b => b) [
  is_abs (lit "/") (lit "/") (lit "/");
  is_abs (lit "/") (lit "/test") (lit "/test");
  is_abs (lit "/") (lit "/test/..") (lit "/");
  is_abs (lit "/") (lit "/test/../") (lit "/");
  is_abs (lit "/") (lit "/test/../abc") (lit "/abc");
  is_abs (lit "/") (lit "/test/../abc/") (lit "/abc");
  is_abs (lit "/") (lit "/test/.././abc/") (lit "/abc");
  is_abs (lit "/") (lit "/test/../abc/../../../qwerty") (lit "/qwerty");
  is_abs (lit "/") (lit "/test/../abc/../../../qwerty/xyz") (lit "/qwerty/xyz");
  is_abs (lit "/dir/1/11/111") ([]) (lit "/dir/1/11/111");
  is_abs (lit "/dir/1/11/111") (lit ".") (lit "/dir/1/11/111");
  is_abs (lit "/dir/1/11/111") (lit "./test") (lit "/dir/1/11/111/test");
  is_abs (lit "/dir/1/11/111") (lit "test") (lit "/dir/1/11/111/test");
  is_abs (lit "/dir/1/11/111") (lit "test/..") (lit "/dir/1/11/111");
  is_abs (lit "/dir/1/11/111") (lit "test/../") (lit "/dir/1/11/111");
  is_abs (lit "/dir/1/11/111") (lit "test/../abc") (lit "/dir/1/11/111/abc");
  is_abs (lit "/dir/1/11/111") (lit "test/../abc/") (lit "/dir/1/11/111/abc");
  is_abs (lit "/dir/1/11/111") (lit "test/.././abc/") (lit "/dir/1/11/111/abc");
  is_abs (lit "/dir/1/11/111") (lit "test/../abc/../../../qwerty") (lit "/dir/1/qwerty");
  is_abs (lit "/dir/1/11/111") (lit "test/../abc/../../../qwerty/xyz") (lit "/dir/1/qwerty/xyz")
] = true.
Proof. vm_compute. reflexivity. Qed.

Example test_node : match world with Ok s0 => forallb (fun b => b) [
  is_node (ush_node_get_by_path 256 (hp s0) (o_root s0) (lit "/test")) None;
  is_node (ush_node_get_by_path 256 (hp s0) (o_root s0) (lit "/data/binary")) None;
  is_node (ush_node_get_by_path 256 (hp s0) (o_root s0) (lit "/dir/../")) None;
  is_node (ush_node_get_by_path 256 (hp s0) (o_root s0) (lit "/")) (Some 1);
  is_node (ush_node_get_by_path 256 (hp s0) (o_root s0) (lit "/data")) (Some 2);
  is_node (ush_node_get_by_path 256 (hp s0) (o_root s0) (lit "/dir")) (Some 3);
  is_node (ush_node_get_by_path 256 (hp s0) (o_root s0) (lit "/dir/1/11/111")) (Some 7);
  is_node (ush_node_get_parent_by_path 256 (hp s0) (o_root s0) (lit "/test")) (Some 1);
  is_node (ush_node_get_parent_by_path 256 (hp s0) (o_root s0) (lit "/data/binary")) (Some 2);
  is_node (ush_node_get_parent_by_path 256 (hp s0) (o_root s0) (lit "/dir/../")) None;
  is_node (ush_node_get_parent_by_path 256 (hp s0) (o_root s0) (lit "/")) None;
  is_node (ush_node_get_parent_by_path 256 (hp s0) (o_root s0) (lit "/data")) (Some 1);
  is_node (ush_node_get_parent_by_path 256 (hp s0) (o_root s0) (lit "/dir")) (Some 1);
  is_node (ush_node_get_parent_by_path 256 (hp s0) (o_root s0) (lit "/dir/1/11/111")) (Some 6)
] | Err _ => false end = true.
Proof. vm_compute. reflexivity. Qed.

Example test_file_find_abs : forallb (fun b => b) [
  is_file (lit "/") (lit "/test") (nth_error files_root 0);
  is_file (lit "/") (lit "/data/text") (nth_error files_data 0);
  is_file (lit "/") (lit "/data/binary") (nth_error files_data 5);
  is_file (lit "/") (lit "/dir/1/11/111/joke") (nth_error files_dir111 0);
  is_file (lit "/dir/1/11/111") (lit "/test") (nth_error files_root 0);
  is_file (lit "/dir/1/11/111") (lit "/data/text") (nth_error files_data 0);
  is_file (lit "/dir/1/11/111") (lit "/data/binary") (nth_error files_data 5);
  is_file (lit "/dir/1/11/111") (lit "/dir/1/11/111/joke") (nth_error files_dir111 0)
] = true.
Proof. vm_compute. reflexivity. Qed.

Example test_file_find_rel : forallb (fun b => b) [
  is_file (lit "/") (lit "test") (nth_error files_root 0);
  is_file (lit "/") (lit "data/text") (nth_error files_data 0);
  is_file (lit "/") (lit "data/binary") (nth_error files_data 5);
  is_file (lit "/") (lit "dir/1/11/111/joke") (nth_error files_dir111 0);
  is_file (lit "/dir/1/11/111") (lit "test") None;
  is_file (lit "/dir/1/11/111") (lit "data/text") None;
  is_file (lit "/dir/1/11/111") (lit "data/binary") None;
  is_file (lit "/dir/1/11/111") (lit "dir/1/11/111/joke") None;
  is_file (lit "/dir/1/11/111") (lit "../../../../test") (nth_error files_root 0);
  is_file (lit "/dir/1/11/111") (lit "../../../../data/text") (nth_error files_data 0);
  is_file (lit "/dir/1/11/111") (lit "../../../../data/binary") (nth_error files_data 5);
  is_file (lit "/dir/1/11/111") (lit "joke") (nth_error files_dir111 0)
] = true.
Proof. vm_compute. reflexivity. Qed.

Example test_file_error : forallb (fun b => b) [
  is_file (lit "/") (lit "qwerty") None;
  is_file (lit "/") (lit "./help") None;
  is_file (lit "/") (lit "/data/test") None;
  is_file (lit "/") (lit "./data/../binary") None;
  is_file (lit "/") (lit "/joke") None
] = true.
Proof. vm_compute. reflexivity. Qed.

(** tests/func_tests/test_func_cmd_cat.c:70-113 *)
Example test_cmd_cat_multi_binary : play [
  Cd (lit "/data"); Buf (lit "abcd");
  Ask (lit "cat /data/buffer ./binary" ++ [LF])
      (lit "cat /data/buffer ./binary" ++ [LF] ++ lit "abcd" ++ all_bytes ++ lit "[test data]$ ");
  Cd (lit "/dir"); Buf [NUL; "T"%char];
  Ask (lit "cat /data/binary ../data/buffer" ++ [LF])
      (lit "cat /data/binary ../data/buffer" ++ [LF] ++ all_bytes ++ [NUL; "T"%char] ++
       lit "[test dir]$ ")
] = true.
Proof. vm_compute. reflexivity. Qed.

(** ** tests/func_tests/test_func_print.c, test_func_reset.c *)

Example test_print : play [
  Api (APrint (lit "test")); Ask [] (lit "test" ++ CRLF ++ lit "[test /]$ ")
] = true.
Proof. vm_compute. reflexivity. Qed.

Example test_print_no_newline : play [
  Api (APrintNoNl (lit "test")); Ask [] (lit "test" ++ lit "[test /]$ ")
] = true.
Proof. vm_compute. reflexivity. Qed.

(** test_func_read: at most [n] service calls. *)
Fixpoint drive_some (n : nat) (s : st) : res st :=
  match n with
  | 0 => Ok s
  | S n =>
      '(r, s) <- ush_service (mkIo None true (test_env [])) s ;;
      if r : bool then drive_some n s else Ok s
  end.

Definition ready : res st := s <- world ;; s <- drive 3000 (test_env []) [] s ;; Ok (clear_log s).

Definition prints_out (r : res st) (t : bytes) : bool :=
  match r with Ok s => beq (outs (lg s)) t | Err _ => false end.

Example test_printf :
  prints_out
    (s <- ready ;;
     s <- ush_printf (FmtOk (lit "linestring0" ++ CRLF)) s ;;
     s <- drive_some 5 s ;;
     s <- ush_printf (FmtOk (lit "linestring1" ++ CRLF)) s ;;
     drive_some 3000 s)
    (lit "linestring0" ++ CRLF ++ lit "linestring1" ++ CRLF ++ lit "[test /]$ ") = true.
Proof. vm_compute. reflexivity. Qed.

Example test_printf_long :
  prints_out (s <- ready ;; s <- ush_printf (FmtOk (repeat "T"%char 255)) s ;; drive_some 3000 s)
    (repeat "T"%char 255 ++ lit "[test /]$ ") = true.
Proof. vm_compute. reflexivity. Qed.

Example test_printf_format_error :
  prints_out
    (s <- ready ;; s <- ush_printf (FmtOk (lit "string0")) s ;;
     s <- ush_printf (FmtErr []) s ;; drive_some 3000 s)
    (lit "string0...format error" ++ CRLF ++ lit "[test /]$ ") = true.
Proof. vm_compute. reflexivity. Qed.

(** The C test compares strings, so it does not see what follows the first NUL. *)
Example test_printf_overflow_error :
  match (s <- ready ;; s <- ush_printf (FmtOk (lit "string0")) s ;;
         s <- ush_printf (FmtOk (repeat "T"%char 248)) s ;;
         s <- ush_printf (FmtOk (lit "O")) s ;; drive_some 3000 s) with
  | Ok s =>
      match c_str (outs (lg s)) 0 with
      | Ok t => beq t (lit "string0" ++ repeat "T"%char (248 - 19) ++ lit "...overflow error" ++ CRLF)
      | Err _ => false
      end
  | Err _ => false
  end = true.
Proof. vm_compute. reflexivity. Qed.

Definition all_status : list status :=
  [ST_OK; ST_NODE_NOT_FOUND; ST_NODE_WITH_CHILDS; ST_NODE_WITHOUT_PARENT;
   ST_NODE_ALREADY_MOUNTED; ST_COMMAND_SYNTAX_ERROR; ST_COMMAND_WRONG_ARGUMENTS;
   ST_FILE_NOT_EXECUTABLE; ST_FILE_NOT_WRITABLE; ST_FILE_NOT_READABLE; ST_FILE_NO_HELP;
   ST_FILE_NOT_FOUND; ST_FILE_READ_ONLY].

Example test_print_status :
  forallb (fun x =>
    prints_out (s <- ready ;; drive_some 3000 (ush_print_status x s))
      (ush_utils_get_status_string cfg_test x ++ CRLF ++ lit "[test /]$ ")) all_status = true.
Proof. vm_compute. reflexivity. Qed.

Example test_flush :
  prints_out
    (s <- ready ;;
     s <- ush_flush (set_outb (lit "test123" ++ CRLF ++ repeat NUL 247) s) ;; drive_some 3000 s)
    (lit "test123" ++ CRLF ++ lit "[test /]$ ") = true.
Proof. vm_compute. reflexivity. Qed.

Example test_reset :
  prints_out (s <- ready ;; drive_some 3000 (ush_reset s)) (lit "uShell 0.1.0" ++ CRLF ++ lit "[test /]$ ") = true.
Proof. vm_compute. reflexivity. Qed.

(** ** tests/func_tests/test_func_mount.c; node 13 is the test's [node] *)

Definition answers {A} (r : res (status * st)) (x : status) (k : st -> res A) : res A :=
  '(y, s) <- r ;;
  if beq (ush_utils_get_status_string cfg_test y) (ush_utils_get_status_string cfg_test x)
  then k s else Err EAssert.
Definition fine {A} (r : res A) : bool := match r with Ok _ => true | Err _ => false end.

Example test_mount :
  fine (s <- ready ;;
        answers (ush_node_set_current_dir (lit "/abc") s) ST_NODE_NOT_FOUND (fun s =>
        answers (ush_node_mount (lit "/abc") 13 [] s) ST_OK (fun s =>
        answers (ush_node_set_current_dir (lit "/abc") s) ST_OK (fun s => Ok s)))) = true.
Proof. vm_compute. reflexivity. Qed.

Example test_mount_error :
  fine (s <- ready ;;
        answers (ush_node_mount (lit "/dir") 13 [] s) ST_NODE_ALREADY_MOUNTED (fun s =>
        answers (ush_node_mount (lit "/test/abc") 13 [] s) ST_NODE_WITHOUT_PARENT (fun s =>
        answers (ush_node_unmount (lit "/test") s) ST_NODE_NOT_FOUND (fun s =>
        answers (ush_node_unmount (lit "/dir") s) ST_NODE_WITH_CHILDS (fun s => Ok s))))) = true.
Proof. vm_compute. reflexivity. Qed.

Example test_mount_unmount :
  fine (s <- ready ;;
        answers (ush_node_set_current_dir (lit "/data") s) ST_OK (fun s =>
        answers (ush_node_unmount (lit "/data") s) ST_OK (fun s =>
        answers (ush_node_set_current_dir (lit "/") s) ST_OK (fun s =>
        answers (ush_node_set_current_dir (lit "/data") s) ST_NODE_NOT_FOUND (fun s => Ok s))))) = true.
Proof. vm_compute. reflexivity. Qed.

(** tests/func_tests/test_func_node.c:56-58, 76-79 *)
Example test_node_abc :
  match (s <- ready ;; ush_node_mount (lit "/abc") 13 [] s) with
  | Ok (_, s) =>
      is_node (ush_node_get_by_path 256 (hp s) (o_root s) (lit "/abc")) (Some 13) &&
      is_node (ush_node_get_parent_by_path 256 (hp s) (o_root s) (lit "/abc")) (Some 1)
  | Err _ => false
  end = true.
Proof. vm_compute. reflexivity. Qed.

(** ** tests/func_tests/test_func_commands.c *)

Definition files_cmd : list file :=
  [mkFile (lit "cmd1") (Some (lit "additional cmd1")) None None None None None;
   mkFile (lit "cmd2") (Some (lit "additional cmd2")) None (Some (XUser 1)) None None None].

(** test_func_commands.c:34-47, [cmd2_exec_callback] *)
Definition cmd_env : env :=
  mkEnv (fun _ _ argv =>
           [APrintNoNl (lit "test cmd2" ++ CRLF ++ flat_map (fun a => a ++ CRLF) (tl argv))])
        (fun _ _ => mkGet GUnset 0 []) (fun _ _ _ => []) (fun _ _ => []).

Definition ask {A} (q r : bytes) (k : st -> res A) (s : st) : res A :=
  s <- drive 3000 cmd_env (q ++ [LF]) (clear_log s) ;;
  if beq (outs (lg s)) (q ++ [LF] ++ r ++ lit "[test /]$ ") then k s else Err EAssert.

Example test_commands_add :
  fine (s <- ready ;;
        ask (lit "cmd1") (lit "error: syntax error" ++ CRLF) (
        ask (lit "cmd2") (lit "error: syntax error" ++ CRLF) (fun s =>
        answers (ush_commands_add 13 files_cmd s) ST_OK (
        ask (lit "cmd1") (lit "error: file not executable" ++ CRLF) (
        ask (lit "help cmd1") (lit "error: no help available" ++ CRLF) (
        ask (lit "cmd2 a b c xyz")
            (lit "test cmd2" ++ CRLF ++ lit "a" ++ CRLF ++ lit "b" ++ CRLF ++ lit "c" ++ CRLF ++
             lit "xyz" ++ CRLF) (fun s => Ok s)))))) s) = true.
Proof. vm_compute. reflexivity. Qed.

Example test_commands_error :
  fine (s <- ready ;; answers (ush_commands_remove 13 s) ST_NODE_NOT_FOUND (fun s => Ok s)) = true.
Proof. vm_compute. reflexivity. Qed.

Example test_commands_remove :
  fine (s <- ready ;;
        ask (lit "pwd") (lit "/" ++ CRLF) (fun s =>
        answers (ush_commands_add 13 files_cmd s) ST_OK (fun s =>
        answers (ush_commands_remove 0 s) ST_OK (
        ask (lit "pwd") (lit "error: syntax error" ++ CRLF) (
        ask (lit "cmd2 test") (lit "test cmd2" ++ CRLF ++ lit "test" ++ CRLF) (fun s => Ok s))))) s) = true.
Proof. vm_compute. reflexivity. Qed.

(** tests/func_tests/test_func_file.c:55-76 *)
Definition finds (name : bytes) (x : option file) (s : st) : bool :=
  match ush_file_find_by_name name s, x with
  | Ok (Some a), Some b => beq (f_name a) (f_name b)
  | Ok None, None => true
  | _, _ => false
  end.

Example test_file_find_cmd :
  forallb (fun dir =>
    match (s <- ready ;;
           answers (ush_node_set_current_dir dir s) ST_OK (fun s =>
           if finds (lit "cmd1") None s then
             answers (ush_commands_add 13 files_cmd s) ST_OK (fun s => Ok s)
           else Err EAssert)) with
    | Ok s =>
        finds (lit "cmd1") (nth_error files_cmd 0) s &&
        finds (lit "cmd2") (nth_error files_cmd 1) s &&
        forallb (fun n => finds n (Some (f_plain n)) s)
          [lit "help"; lit "ls"; lit "cd"; lit "pwd"; lit "cat"; lit "xxd"; lit "echo"]
    | Err _ => false
    end) [lit "/"; lit "/dir/1/11/111"] = true.
Proof. vm_compute. reflexivity. Qed.

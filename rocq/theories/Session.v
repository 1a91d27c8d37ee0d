(** * Session: a small abstract shell (independent of the state machine).

    It consists of the line editor (Editor.v), the splitting of lines (Words.v), the
    lookup of names and the effect of API calls on the tree (Tree.v), the texts of the
    built-in commands and of callbacks (Cmds.v) and completion (Complete.v).

    The application has a memory: what its callbacks do may depend on all the bytes read
    so far, hence on everything typed before.  Its callbacks and its exec hook may print, mount and unmount
    directories, register and remove commands, and change the current directory. *)
From Coq Require Import Arith.
From Verif Require Import Shell Spec Words Sched Editor Line Tree Cmds Complete.

(** Descriptor, and the callbacks when the given bytes have been read. *)
Record setting := mkSetting { x_desc : desc; x_app : bytes -> env }.
(** Directories, commands and current directory; the bytes read so far; the escape
    progress; the line. *)
Record sess := mkSess { se_world : world; se_read : bytes; se_esc : nat; se_line : bytes }.

Definition app_of (x : setting) : application := fun log => x_app x (ins log).
Definition msg (d : desc) (st : status) : bytes := status_text (d_cfg d) st ++ crlf.

(** The data a getter returns. *)
Definition data_of (e : env) (cb : nat) (f : file) : bytes :=
  match e_get e cb (f_name f) with mkGet (GData t) n _ => firstn n t | _ => [] end.
(** The world after the calls a getter makes. *)
Definition after_get (e : env) (w : world) (cb : nat) (f : file) : world :=
  snd (spec_ops (tree_calls (g_calls (e_get e cb (f_name f)))) w).

(** ** Reaction to a line *)

(** Calls and output, the text printed at the end, and the new world. *)
Definition reaction := (list event * bytes * world)%type.
Definition prints_only (w : world) (t : bytes) : reaction := ([], t, w).

Definition list_dir (d : desc) (w : world) (p : dirpath) : bytes :=
  match dir_at p (w_fs w) with Some dd => ls_dir (d_cfg d) dd (w_fs w) | None => [] end.

Definition do_help (d : desc) (w : world) (args : list bytes) : reaction :=
  prints_only w
    match args with
    | [] => help_text (d_cfg d) (flat_map snd (w_groups w))
    | name :: _ =>
        match denotes w name with
        | None => msg d ST_FILE_NOT_FOUND
        | Some g => match f_help g with None => msg d ST_FILE_NO_HELP | Some t => t end
        end
    end.

Definition do_ls (d : desc) (w : world) (args : list bytes) : reaction :=
  prints_only w
    match args with
    | [] => list_dir d w (here w)
    | path :: _ =>
        match dir_named (show (resolve_text (here w) path)) (w_fs w) with
        | Some dd => ls_dir (d_cfg d) dd (w_fs w)
        | None => msg d ST_NODE_NOT_FOUND
        end
    end.

(** What an exec hook prints remains. *)
Definition do_cd (d : desc) (e : env) (w : world) (c : byte) (ws : list bytes) : reaction :=
  let path := nth 1 ws [] in
  match path with
  | [] => prints_only w (msg d ST_NODE_NOT_FOUND)
  | _ =>
      match dir_named (show (resolve_text (here w) path)) (w_fs w) with
      | Some dd => ([], said d c ws (hook_calls e d ws), mkWorld (w_fs w) (w_groups w) (Some (de_path dd)))
      | None => prints_only w (msg d ST_NODE_NOT_FOUND)
      end
  end.

(** Why a file cannot be read, for the first such name. *)
Definition unreadable (w : world) (name : bytes) : option status :=
  match denotes w name with
  | None => Some ST_FILE_NOT_FOUND
  | Some f => match f_get f with None => Some ST_FILE_NOT_READABLE | Some _ => None end
  end.
Fixpoint first_unreadable (w : world) (names : list bytes) : option status :=
  match names with
  | [] => None
  | n :: r => match unreadable w n with Some st => Some st | None => first_unreadable w r end
  end.
(** The files are read one after the other; each name is looked up in the world the getters
    before it have left. *)
Fixpoint read_all (e : env) (w : world) (names : list bytes) : list event * world :=
  match names with
  | [] => ([], w)
  | n :: r =>
      match denotes w n with
      | Some f =>
          match f_get f with
          | Some cb => let (evs, w') := read_all e (after_get e w cb f) r in (EvGet cb (f_name f) :: map EvOut (data_of e cb f) ++ evs, w')
          | None => ([], w)
          end
      | None => ([], w)
      end
  end.

Definition do_cat (d : desc) (e : env) (w : world) (names : list bytes) : reaction :=
  match first_unreadable w names with
  | Some st => prints_only w (msg d st)
  | None => let (evs, w') := read_all e w names in (evs, [], w')
  end.

Definition do_xxd (d : desc) (e : env) (w : world) (name : bytes) : reaction :=
  match denotes w name with
  | None => prints_only w (msg d ST_FILE_NOT_FOUND)
  | Some f =>
      match f_get f with
      | None => prints_only w (msg d ST_FILE_NOT_READABLE)
      | Some cb => ([EvGet cb (f_name f)], xxd_dump (cfg_cols (d_cfg d)) (data_of e cb f), after_get e w cb f)
      end
  end.

(** A callback of the application, after the hook: what is printed, and the world after
    its calls. *)
Definition do_calls (d : desc) (w : world) (c : byte) (ws : list bytes) (hook calls : list action) : bytes * world :=
  (said d c ws (hook ++ calls), snd (spec_ops (tree_calls calls) w)).

Definition do_echo (d : desc) (e : env) (w : world) (c : byte) (ws : list bytes) : reaction :=
  match tl ws with
  | [text] => prints_only w (until_nul (decode text ++ skipn (length (decode text)) text) ++ crlf)
  | [text; op; name] =>
      if beq op (lit ">") then
        match denotes w name with
        | None => prints_only w (msg d ST_FILE_NOT_FOUND)
        | Some f =>
            match f_set f with
            | None => prints_only w (msg d ST_FILE_NOT_WRITABLE)
            | Some cb =>
                let (t, w') := do_calls d w c [] (hook_calls e d ws) (e_set e cb (f_name f) (decode text)) in
                ([EvSet cb (f_name f) (decode text)], t, w')
            end
        end
      else prints_only w (msg d ST_COMMAND_WRONG_ARGUMENTS)
  | _ => prints_only w crlf
  end.

(** The exec callback [cb] of the file [f], called with the words [ws] after the end of
    line [c]. *)
Definition do_exec (d : desc) (e : env) (w : world) (c : byte) (cb : exec_cb) (f : file) (ws : list bytes) : reaction :=
  if accepts cb (length ws) then
    match cb with
    | XHelp => do_help d w (tl ws)
    | XLs => do_ls d w (tl ws)
    | XCd => do_cd d e w c ws
    | XPwd => prints_only w (show (here w) ++ crlf)
    | XCat => do_cat d e w (tl ws)
    | XXxd => do_xxd d e w (nth 1 ws [])
    | XEcho => do_echo d e w c ws
    | XUser k =>
        let (t, w') := do_calls d w c ws (hook_calls e d ws) (e_exec e k (Some (f_name f)) ws) in ([], t, w')
    end
  else prints_only w (msg d ST_COMMAND_WRONG_ARGUMENTS).

(** The hook is called first; the name is looked up in the world the hook leaves. *)
Definition react (d : desc) (e : env) (w : world) (c : byte) (ws : list bytes) : reaction :=
  match ws with
  | [] => prints_only w []
  | name :: _ =>
      let hook := hook_events d ws in let w1 := after_hook e d ws w in
      match denotes w1 name with
      | None => (hook, msg d ST_COMMAND_SYNTAX_ERROR, w1)
      | Some f =>
          match f_exec f with
          | None => (hook, msg d ST_FILE_NOT_EXECUTABLE, w1)
          | Some cb => let '(evs, t, w') := do_exec d e w1 c cb f ws in (hook ++ EvExec cb (Some (f_name f)) ws :: evs, t, w')
          end
      end
  end.

(** ** One byte *)

(** TAB: output and new line. *)
Definition complete (d : desc) (w : world) (l : bytes) : bytes * bytes :=
  let word := last_word l in
  match candidates w (here w) word with
  | [] => ([], l)
  | [n] => (skipn (length word) n, before_word l ++ n)
  | cs =>
      if beq (common cs) word
      then (CRLF ++ flat_map (fun n => n ++ CRLF) cs ++ prompt d (show (here w)) ++ l, l)
      else (skipn (length word) (common cs), before_word l ++ common cs)
  end.

Definition ends_line (a : sess) (c : byte) : bool := (se_esc a =? 0) && (ceq c CR || ceq c LF).
Definition completes (x : setting) (c : byte) : bool := ceq c TAB && cfg_autocomp (d_cfg (x_desc x)).
(** The argument vector of the line. *)
Definition line_argv (x : setting) (a : sess) : list bytes := argv_of (kept_line (d_insize (x_desc x)) (se_line a)).
(** The callbacks while the answer to [c] is given. *)
Definition env_at (x : setting) (a : sess) (c : byte) : env := x_app x (se_read a ++ [c]).

(** What happens when the byte [c] is read (the event of reading it excluded), and the
    session afterwards. *)
Definition sess_step (x : setting) (a : sess) (c : byte) : list event * sess :=
  let d := x_desc x in let w := se_world a in let h := se_read a ++ [c] in
  if ends_line a c then
    let '(evs, t, w') := react d (env_at x a c) w c (line_argv x a) in
    (map EvOut (eol_echo c) ++ evs ++ map EvOut (t ++ prompt d (show (here w'))), mkSess w' h 0 [])
  else if completes x c then
    let '(out, l') := complete d w (se_line a) in
    (map EvOut out, mkSess w h (se_esc a) l')
  else
    let kl := ed_step (d_insize d) (se_esc a, se_line a) c in
    (map EvOut (ed_out (CRLF ++ prompt d (show (here w))) (se_esc a, se_line a) c), mkSess w h (fst kl) (snd kl)).

Fixpoint sess_run (x : setting) (a : sess) (cs : bytes) : list event * sess :=
  match cs with
  | [] => ([], a)
  | c :: r => let (evs, a1) := sess_step x a c in let (evs2, a2) := sess_run x a1 r in (EvIn c :: evs ++ evs2, a2)
  end.

(** ** Limits *)

(** What must hold of the files when a line is executed: the callbacks of the built-in
    commands are used by these commands only; file names can be joined to the path of
    their directory within path_max_length. *)
Definition own_callback (f : file) (cb : exec_cb) : Prop :=
  match cb with
  | XHelp => f = cmd_help | XLs => f = cmd_ls | XCd => f = cmd_cd | XPwd => f = cmd_pwd
  | XCat => f = cmd_cat | XXxd => f = cmd_xxd | XEcho => f = cmd_echo | XUser _ => True
  end.
Definition stock (d : desc) (w : world) : Prop :=
  (forall f cb, In f (flat_map snd (w_groups w)) -> f_exec f = Some cb -> own_callback f cb) /\
  (forall dd f cb, In dd (w_fs w) -> In f (de_files dd) -> f_exec f = Some cb -> exists k, cb = XUser k) /\
  names_ok (d_pathmax d) (w_fs w).

(** The name can be looked up, and the path resolved, within path_max_length. *)
Definition sought (d : desc) (w : world) (n : bytes) : Prop :=
  file_named n (flat_map snd (w_groups w)) <> None \/ length (full_text (here w) n) < d_pathmax d.
(** The getter delivers its data. *)
Definition delivers (e : env) (cb : nat) (f : file) : Prop :=
  exists extra calls, e_get e cb (f_name f) = mkGet (GData (data_of e cb f ++ extra)) (length (data_of e cb f)) calls.
(** Calls of printing functions, and correct calls that change the tree and leave a current
    directory; [hook] has been printed before. *)
Definition calls_well (own : list nat) (d : desc) (w : world) (ws : list bytes) (hook l : list action) : Prop :=
  Forall (proper_call ws) l /\ room_for d (hook ++ l) /\
  all_allowed (d_pathmax d) own (tree_calls l) w /\ w_cwd (snd (spec_ops (tree_calls l) w)) <> None.
(** cat: each name still denotes a readable file when its turn comes; its getter does not
    print, and its calls are correct and leave a current directory. *)
Definition changes_only (l : list action) : Prop := Forall (fun a => tree_call a <> None /\ proper_call [] a) l.
Fixpoint cat_limits (own : list nat) (d : desc) (e : env) (w : world) (names : list bytes) : Prop :=
  match names with
  | [] => True
  | n :: r =>
      names_ok (d_pathmax d) (w_fs w) /\ sought d w n /\
      exists f cb, denotes w n = Some f /\ f_get f = Some cb /\ delivers e cb f /\
        (let calls := g_calls (e_get e cb (f_name f)) in
         changes_only calls /\ all_allowed (d_pathmax d) own (tree_calls calls) w) /\
        w_cwd (after_get e w cb f) <> None /\ cat_limits own d e (after_get e w cb f) r
  end.
Definition dir_listable (d : desc) (dd : dirent) : Prop :=
  Forall (listable d) (de_files dd) /\ (6 < d_outsize d \/ de_files dd = []).

Definition exec_limits (own : list nat) (d : desc) (e : env) (w : world) (cb : exec_cb) (f : file) (ws : list bytes) : Prop :=
  match cb, tl ws with
  | XHelp, [] => Forall (listable d) (flat_map snd (w_groups w))
  | XHelp, [n] => sought d w n
  | XLs, [] => forall dd, dir_at (here w) (w_fs w) = Some dd -> dir_listable d dd
  | XLs, [p] => length (full_text (here w) p) < d_pathmax d /\
      forall dd, dir_named (show (resolve_text (here w) p)) (w_fs w) = Some dd -> dir_listable d dd
  | XCd, [p] => length (full_text (here w) p) < d_pathmax d
  | XCat, ns => Forall (sought d w) ns /\ (first_unreadable w ns = None -> cat_limits own d e w ns)
  | XXxd, [n] => sought d w n /\
      forall g k, denotes w n = Some g -> f_get g = Some k ->
        delivers e k g /\ dumpable d (data_of e k g) /\ calls_well own d w [] (hook_calls e d ws) (g_calls (e_get e k (f_name g)))
  | XEcho, [text; _; n] => sought d w n /\
      forall g k, denotes w n = Some g -> f_set g = Some k ->
        Forall (proper_call []) (hook_calls e d ws) /\ calls_well own d w [] (hook_calls e d ws) (e_set e k (f_name g) (decode text))
  | XUser k, _ => calls_well own d w ws (hook_calls e d ws) (e_exec e k (Some (f_name f)) ws)
  | _, _ => True
  end.

Definition line_limits (own : list nat) (d : desc) (e : env) (w : world) (ws : list bytes) : Prop :=
  match ws with
  | [] => True
  | name :: _ =>
      let w1 := after_hook e d ws w in
      calls_well own d w ws [] (hook_calls e d ws) /\ stock d w1 /\ sought d w1 name /\
      forall f cb, denotes w1 name = Some f -> f_exec f = Some cb -> accepts cb (length ws) = true ->
        exec_limits own d e w1 cb f ws
  end.

Definition tab_limits (d : desc) (w : world) (l : bytes) : Prop :=
  let cs := candidates w (here w) (last_word l) in
  tidy w /\ ~ In NUL l /\ tab_room d (here w) l cs /\ Forall eol_free cs.

Definition step_limits (own : list nat) (x : setting) (a : sess) (c : byte) : Prop :=
  (ends_line a c = true -> line_limits own (x_desc x) (env_at x a c) (se_world a) (line_argv x a)) /\
  (completes x c = true -> tab_limits (x_desc x) (se_world a) (se_line a)).

Fixpoint run_limits (own : list nat) (x : setting) (a : sess) (cs : bytes) : Prop :=
  match cs with
  | [] => True
  | c :: r => step_limits own x a c /\ run_limits own x (snd (sess_step x a c)) r
  end.

(** ** The shell and the abstract shell *)

(** The shell polls and stands where the session stands. *)
Definition shows (own : list nat) (x : setting) (a : sess) (s : st) : Prop :=
  o_desc s = x_desc x /\ knows own s (se_world a) /\ w_cwd (se_world a) <> None /\ se_read a = ins (lg s) /\
  editing (se_esc a) (se_line a) s /\ bufs_ok s /\ se_esc a <= 2 /\ eol_free (se_line a).

(** ** Limits on the setting alone *)
Definition file_of (w : world) (f : file) : Prop :=
  In f (flat_map snd (w_groups w)) \/ exists dd, In dd (w_fs w) /\ In f (de_files dd).

(** In a world [w], with [room] for the paths of the mounted directories: names fit in the
    output buffer; getters deliver data that can be dumped, do not print and do not make
    readable names unreadable; the exec hook and the callbacks of the application make
    proper calls, and lead to worlds of [W], as does changing the directory. *)
Definition setting_in (room : list bytes -> Prop) (own : list nat) (x : setting) (W : world -> Prop) (w : world) : Prop :=
  let d := x_desc x in
  stock d w /\
  (forall dd, In dd (w_fs w) -> room (de_path dd)) /\
  room (here w) /\
  6 < d_outsize d /\
  (forall f, file_of w f -> listable d f) /\
  (forall dd, In dd (w_fs w) -> W (mkWorld (w_fs w) (w_groups w) (Some (de_path dd)))) /\
  forall h, let e := x_app x h in
  (forall f k ws, file_of w f -> f_get f = Some k -> let calls := g_calls (e_get e k (f_name f)) in
     delivers e k f /\ dumpable d (data_of e k f) /\ changes_only calls /\ calls_well own d w [] (hook_calls e d ws) calls /\ W (after_get e w k f) /\
     forall n, unreadable w n = None -> unreadable (after_get e w k f) n = None) /\
  (forall ws, calls_well own d w ws [] (hook_calls e d ws) /\ W (after_hook e d ws w)) /\
  (forall f k ws t, file_of w f -> f_set f = Some k -> let calls := e_set e k (f_name f) t in
     Forall (proper_call []) (hook_calls e d ws) /\ calls_well own d w [] (hook_calls e d ws) calls /\ W (snd (spec_ops (tree_calls calls) w))) /\
  (forall f k ws, file_of w f -> f_exec f = Some (XUser k) -> let calls := e_exec e k (Some (f_name f)) ws in
     calls_well own d w ws (hook_calls e d ws) calls /\ W (snd (spec_ops (tree_calls calls) w))).

(** path_max_length can hold anything typed joined to any mounted path, in every world that can
    come up.  A word has at most BUF_IN_SIZE - 2 characters, so that the first is enough; the
    second leaves two bytes more. *)
Definition snug (own : list nat) (x : setting) (W : world -> Prop) : Prop :=
  forall w, W w -> setting_in (fun p => length (slashed p) + d_insize (x_desc x) <= d_pathmax (x_desc x)) own x W w.
Definition ample (own : list nat) (x : setting) (W : world -> Prop) : Prop :=
  forall w, W w -> setting_in (fun p => length (show p) + d_insize (x_desc x) < d_pathmax (x_desc x)) own x W w.

(** TAB now: proper names and no NUL in the line; and there is room to complete the word
    ([tab_room], Complete.v). *)
Definition tab_ready (a : sess) : Prop :=
  let w := se_world a in tidy w /\ Forall eol_free (candidates w (here w) (last_word (se_line a))) /\ ~ In NUL (se_line a).
Definition tab_short (x : setting) (a : sess) : Prop :=
  let w := se_world a in tab_room (x_desc x) (here w) (se_line a) (candidates w (here w) (last_word (se_line a))).
(** Every TAB in [cs] comes at such a time. *)
Definition tabs_fit (x : setting) (a : sess) (cs : bytes) : Prop :=
  cfg_autocomp (d_cfg (x_desc x)) = true -> forall p q, cs = p ++ TAB :: q -> let b := snd (sess_run x a p) in tab_ready b /\ tab_short x b.

(** ** Typing and calls of the application by turns *)

(** The user types; or the application calls the API while the shell polls: one call that
    changes directories or commands, some printing calls one after the other, text put into
    the output buffer and ush_flush, or ush_reset. *)
Inductive turn := Types (cs : bytes) | Calls (o : treeop) | Says (l : list action) | Flushes (t : bytes) | Resets.
(** The calls that make the shell print. *)
Definition turn_calls (t : turn) : list action :=
  match t with
  | Types _ | Calls _ => []
  | Says l => l
  | Flushes u => [AWriteOut u; AFlush]
  | Resets => [AReset]
  end.
(** Printing ends with a prompt and an empty line. *)
Definition finishes (x : setting) (a : sess) (w : world) (t : bytes) : list event * sess :=
  (map EvOut (t ++ prompt (x_desc x) (show (here w))), mkSess w (se_read a) 0 []).
Definition take_turn (x : setting) (a : sess) (t : turn) : list event * sess :=
  let w := se_world a in
  match t with
  | Types cs => sess_run x a cs
  | Calls o => ([], mkSess (snd (spec_op o w)) (se_read a) (se_esc a) (se_line a))
  | Says l => finishes x a w (spoken (x_desc x) [] None [] l)
  | Flushes u => finishes x a w u
  | Resets => finishes x a (mkWorld (w_fs w) (w_groups w) (Some [])) greeting
  end.
Fixpoint take_turns (x : setting) (a : sess) (l : list turn) : list event * sess :=
  match l with
  | [] => ([], a)
  | t :: r => let (evs, a1) := take_turn x a t in let (evs2, a2) := take_turns x a1 r in (evs ++ evs2, a2)
  end.
(** Typing within the limits; correct calls that leave a current directory; text that fits
    into the output buffer beside an echo. *)
Definition turn_limits (own : list nat) (x : setting) (a : sess) (t : turn) : Prop :=
  match t with
  | Types cs => run_limits own x a cs
  | Calls o => allowed (d_pathmax (x_desc x)) own (se_world a) o /\ w_cwd (snd (spec_op o (se_world a))) <> None
  | Says l => l <> [] /\ Forall (printing_call []) l /\ 3 + length (formatted l) < d_outsize (x_desc x)
  | Flushes u => ~ In NUL u /\ length u < d_outsize (x_desc x)
  | Resets => True
  end.
Fixpoint turns_limits (own : list nat) (x : setting) (a : sess) (l : list turn) : Prop :=
  match l with
  | [] => True
  | t :: r => turn_limits own x a t /\ turns_limits own x (snd (take_turn x a t)) r
  end.

(** The shell goes from [s] to [s'] taking the turns: it answers all bytes of a turn of
    typing under some schedule, or it is called; after calls that print it is serviced until
    it polls, or the bytes of the next turn arrive while it is still printing. *)
Inductive acted (x : setting) : list turn -> st -> st -> Prop :=
| acted_nil : forall s, acted x [] s s
| acted_types : forall cs l s s1 r s', drive (app_of x) cs l s = Ok ([], s1) -> polling s1 -> acted x r s1 s' -> acted x (Types cs :: r) s s'
| acted_calls : forall o s st1 s1 r s', do_op o s = Ok (st1, s1) -> acted x r s1 s' -> acted x (Calls o :: r) s s'
| acted_prints : forall t l s s1 s2 r s', turn_calls t <> [] -> do_actions [] (turn_calls t) s = Ok s1 ->
    drive (app_of x) [] l s1 = Ok ([], s2) -> polling s2 -> acted x r s2 s' -> acted x (t :: r) s s'
| acted_ahead : forall t cs l s s1 s2 r s', turn_calls t <> [] -> do_actions [] (turn_calls t) s = Ok s1 ->
    drive (app_of x) cs l s1 = Ok ([], s2) -> polling s2 -> acted x r s2 s' -> acted x (t :: Types cs :: r) s s'.

(** Nothing of the output buffer remains to be printed: something else was printed last,
    or an echo of at most three bytes. *)
Definition settled (s : st) : Prop := o_wbuf s = Some WOut ->
  exists t r, outb s = t ++ NUL :: r /\ no_nul t /\ length t <= 3 /\ o_wsize s = length t /\ o_wpos s = length t.
(** Callbacks of the application make API calls but do not assign states other than those
    a process callback may assign. *)
Definition well_behaved (x : setting) : Prop := forall h, fair (x_app x h).

(** Turns that are within the limits in all the worlds [W]; TAB only where there is room. *)
Definition turn_fits (own : list nat) (x : setting) (W : world -> Prop) (a : sess) (t : turn) : Prop :=
  match t with
  | Types cs => tabs_fit x a cs
  | Calls o => forall w, W w -> allowed (d_pathmax (x_desc x)) own w o /\ w_cwd (snd (spec_op o w)) <> None /\ W (snd (spec_op o w))
  | Says l => l <> [] /\ Forall (printing_call []) l /\ 3 + length (formatted l) < d_outsize (x_desc x)
  | Flushes u => ~ In NUL u /\ length u < d_outsize (x_desc x)
  | Resets => True
  end.
Fixpoint turns_fit (own : list nat) (x : setting) (W : world -> Prop) (a : sess) (l : list turn) : Prop :=
  match l with
  | [] => True
  | t :: r => turn_fits own x W a t /\ turns_fit own x W (snd (take_turn x a t)) r
  end.

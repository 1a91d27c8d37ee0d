(** * Node: model of ush_node.c, ush_node_utils.c, ush_node_mount.c, ush_file.c,
    ush_commands.c.

    [pm] is desc->path_max_length, [h] the node memory.  A pointer to a node is
    [Some id]; dereferencing NULL or an id outside the memory is [Err ENull].
    A walk over [next] links gets fuel [S (length h)]: a walk that visits more
    nodes than exist visits one twice and never ends, hence [Err EDiverge]. *)
From Verif Require Export Types.

(** [*p] *)
Definition getn (h : list node) (i : nat) : res node :=
  match nth_error h i with Some n => Ok n | None => Err ENull end.
Definition getp (h : list node) (p : option nat) : res node :=
  match p with Some i => getn h i | None => Err ENull end.
(** [*p = n] *)
Definition setn (h : list node) (i : nat) (n : node) : res (list node) :=
  if i <? length h then Ok (upd h i n) else Err ENull.

(** Field updates of a node object. *)
Definition with_next (x : option nat) (n : node) : node :=
  mkNode (n_files n) (n_path n) (n_parent n) (n_children n) x.
Definition with_children (x : option nat) (n : node) : node :=
  mkNode (n_files n) (n_path n) (n_parent n) x (n_next n).
Definition with_parent (x : option nat) (n : node) : node :=
  mkNode (n_files n) (n_path n) x (n_children n) (n_next n).
Definition with_mount (fs : list file) (p : option bytes) (n : node) : node :=
  mkNode fs p (n_parent n) (n_children n) (n_next n).

(** [node->path] used as a string. *)
Definition path_of (n : node) : res bytes :=
  match n_path n with Some p => Ok p | None => Err ENull end.

(** ush_node.c:49-55, the inner loop of [ush_node_get_by_path]. *)
Fixpoint sib_search (fuel : nat) (h : list node) (curr : option nat) (lp : bytes)
  : res (option nat) :=
  match fuel with
  | 0 => Err EDiverge
  | S f =>
      match curr with
      | None => Ok None
      | Some i =>
          n <- getn h i ;;
          p <- path_of n ;;
          if beq p lp then Ok (Some i) else sib_search f h (n_next n) lp
      end
  end.

(** ush_node.c:45-64, the outer loop of [ush_node_get_by_path]; [n] iterations
    are left, [i] is the level, [lbuf] the array level_path. *)
Fixpoint get_loop (n : nat) (i levels : nat) (h : list node) (path lbuf : bytes)
         (curr : option nat) : res (option nat) :=
  match n with
  | 0 => Ok None
  | S n' =>
      lbuf <- ush_utils_get_path_level i path lbuf ;;
      lp <- c_str lbuf 0 ;;
      found <- sib_search (S (length h)) h curr lp ;;
      match found with
      | None => Ok None
      | Some c =>
          if i =? levels then Ok (Some c)
          else
            nd <- getn h c ;;
            get_loop n' (S i) levels h path lbuf (n_children nd)
      end
  end.

(** ush_node.c:30-68 [ush_node_get_by_path] *)
Definition ush_node_get_by_path (pm : nat) (h : list node) (root : option nat)
           (path : bytes) : res (option nat) :=
  let levels := ush_utils_get_path_levels_count path in
  if levels =? 0 then Ok root
  else match root with
       | None => Ok None
       | Some r =>
           nd <- getn h r ;;
           get_loop levels 1 levels h path (local_array pm) (n_children nd)
       end.

(** ush_node_utils.c:30-44 [ush_node_get_parent_by_path] *)
Definition ush_node_get_parent_by_path (pm : nat) (h : list node) (root : option nat)
           (path : bytes) : res (option nat) :=
  b <- ush_utils_path_upper (path ++ [NUL]) ;;
  p <- c_str b 0 ;;
  match p with
  | [] => Ok None
  | _ => ush_node_get_by_path pm h root p
  end.

(** ush_node.c:70-92 [ush_node_get_absolute_path]; [out] is the array behind
    out_path, [cur] is self->current_node. *)
Definition ush_node_get_absolute_path (pm : nat) (h : list node) (cur : option nat)
           (in_path : bytes) (out : bytes) : res bytes :=
  let abs := local_array pm in
  abs <- (if match in_path with c :: _ => ceq c SL | [] => false end
          then c_strcpy abs 0 in_path
          else
            nd <- getp h cur ;;
            cp <- path_of nd ;;
            abs <- c_strcpy abs 0 cp ;;
            abs <- (if beq cp (lit "/") then Ok abs else c_strcat abs 0 (lit "/")) ;;
            c_strcat abs 0 in_path) ;;
  len <- c_strlen abs 0 ;;
  abs <- (if 1 <? len
          then
            c <- rd abs (len - 1) ;;
            if ceq c SL then wr abs (len - 1) NUL else Ok abs
          else Ok abs) ;;
  ush_utils_get_collapse_path abs out.

(** [ush_node_get_absolute_path] into a local array of path_max_length bytes,
    then used as a string (every caller in the library does this). *)
Definition abs_path_str (pm : nat) (h : list node) (cur : option nat) (in_path : bytes)
  : res bytes :=
  out <- ush_node_get_absolute_path pm h cur in_path (local_array pm) ;;
  c_str out 0.

(** ush_node_utils.c:46-64 [ush_node_set_current_dir] *)
Definition ush_node_set_current_dir (path : bytes) (s : st) : res (status * st) :=
  match path with
  | [] => Ok (ST_NODE_NOT_FOUND, s)
  | _ =>
      let pm := d_pathmax (o_desc s) in
      abs <- abs_path_str pm (hp s) (o_cur s) path ;;
      n <- ush_node_get_by_path pm (hp s) (o_root s) abs ;;
      match n with
      | Some i => Ok (ST_OK, set_cur (Some i) s)
      | None => Ok (ST_NODE_NOT_FOUND, s)
      end
  end.

(** ush_node_mount.c:30-65 [ush_node_mount]; [id] is the node object passed in,
    [path] is kept by pointer (simplification: its characters never change). *)
Definition ush_node_mount (path : bytes) (id : nat) (fs : list file) (s : st)
  : res (status * st) :=
  let pm := d_pathmax (o_desc s) in
  nd <- getn (hp s) id ;;
  h <- setn (hp s) id (with_mount fs (Some path) nd) ;;
  let s := set_hp h s in
  ex <- ush_node_get_by_path pm h (o_root s) path ;;
  match ex with
  | Some _ => Ok (ST_NODE_ALREADY_MOUNTED, s)
  | None =>
      par <- ush_node_get_parent_by_path pm h (o_root s) path ;;
      match par with
      | Some p =>
          pn <- getn h p ;;
          nd <- getn h id ;;
          h <- setn h id (with_next (n_children pn) nd) ;;
          pn <- getn h p ;;
          h <- setn h p (with_children (Some id) pn) ;;
          nd <- getn h id ;;
          h <- setn h id (with_parent (Some p) nd) ;;
          Ok (ST_OK, set_hp h s)
      | None =>
          if beq path (lit "/") then
            nd <- getn h id ;;
            h <- setn h id (with_parent None (with_next None nd)) ;;
            Ok (ST_OK, set_hp h (set_cur (Some id) (set_root (Some id) s)))
          else Ok (ST_NODE_WITHOUT_PARENT, s)
      end
  end.

(** ush_node_mount.c:89-101 and ush_commands.c:58-70: walk the list starting at
    [curr] (with [prev] before it) looking for [id]; the result tells the
    predecessor when found. *)
Fixpoint find_prev (fuel : nat) (h : list node) (id : nat) (prev curr : option nat)
  : res (option (option nat)) :=
  match fuel with
  | 0 => Err EDiverge
  | S f =>
      match curr with
      | None => Ok None
      | Some c =>
          if c =? id then Ok (Some prev)
          else n <- getn h c ;; find_prev f h id (Some c) (n_next n)
      end
  end.

(** ush_node_mount.c:67-104 [ush_node_unmount] *)
Definition ush_node_unmount (path : bytes) (s : st) : res (status * st) :=
  let pm := d_pathmax (o_desc s) in
  let h := hp s in
  par <- ush_node_get_parent_by_path pm h (o_root s) path ;;
  node <- ush_node_get_by_path pm h (o_root s) path ;;
  match node with
  | None => Ok (ST_NODE_NOT_FOUND, s)
  | Some i =>
      let is_root := match o_root s with Some r => i =? r | None => false end in
      if negb is_root && match par with None => true | _ => false end
      then Ok (ST_NODE_NOT_FOUND, s)
      else
        nd <- getn h i ;;
        match n_children nd with
        | Some _ => Ok (ST_NODE_WITH_CHILDS, s)
        | None =>
            match par with
            | None => Ok (ST_OK, set_root None s)
            | Some p =>
                pn <- getn h p ;;
                r <- find_prev (S (length h)) h i None (n_children pn) ;;
                match r with
                | None => Ok (ST_NODE_NOT_FOUND, s)
                | Some None =>
                    h <- setn h p (with_children (n_next nd) pn) ;;
                    Ok (ST_OK, set_hp h s)
                | Some (Some q) =>
                    qn <- getn h q ;;
                    h <- setn h q (with_next (n_next nd) qn) ;;
                    Ok (ST_OK, set_hp h s)
                end
            end
        end
  end.

(** ush_node.c:94-108 [ush_node_deinit_recursive].  The children are visited
    first, then [next] is read and the node zeroed.  Fuel bounds the nesting. *)
Fixpoint ush_node_deinit_recursive (fuel : nat) (h : list node) (curr : option nat)
  : res (list node) :=
  match curr with
  | None => Ok h
  | Some i =>
      match fuel with
      | 0 => Err EDiverge
      | S f =>
          nd <- getn h i ;;
          h <- (match n_children nd with
                | None => Ok h
                | Some c => ush_node_deinit_recursive f h (Some c)
                end) ;;
          nd <- getn h i ;;
          h <- setn h i node_zero ;;
          ush_node_deinit_recursive f h (n_next nd)
      end
  end.

(** ush_commands.c:29-48 [ush_commands_add] *)
Definition ush_commands_add (id : nat) (fs : list file) (s : st) : res (status * st) :=
  _ <- assert_ (negb (length fs =? 0)) ;;
  nd <- getn (hp s) id ;;
  h <- setn (hp s) id (with_next (o_cmds s) (with_mount fs None nd)) ;;
  Ok (ST_OK, set_cmds (Some id) (set_hp h s)).

(** ush_commands.c:50-73 [ush_commands_remove] *)
Definition ush_commands_remove (id : nat) (s : st) : res (status * st) :=
  let h := hp s in
  r <- find_prev (S (length h)) h id None (o_cmds s) ;;
  match r with
  | None => Ok (ST_NODE_NOT_FOUND, s)
  | Some None =>
      nd <- getn h id ;;
      Ok (ST_OK, set_cmds (n_next nd) s)
  | Some (Some q) =>
      nd <- getn h id ;;
      qn <- getn h q ;;
      h <- setn h q (with_next (n_next nd) qn) ;;
      Ok (ST_OK, set_hp h s)
  end.

(** ush_file.c:41-45, scan of one file list for a command name. *)
Fixpoint find_cmd (fs : list file) (name : bytes) : option file :=
  match fs with
  | [] => None
  | f :: r => if beq (f_name f) name then Some f else find_cmd r name
  end.

(** ush_file.c:39-47, walk over the command groups. *)
Fixpoint find_cmds (fuel : nat) (h : list node) (curr : option nat) (name : bytes)
  : res (option file) :=
  match fuel with
  | 0 => Err EDiverge
  | S f =>
      match curr with
      | None => Ok None
      | Some i =>
          n <- getn h i ;;
          match find_cmd (n_files n) name with
          | Some x => Ok (Some x)
          | None => find_cmds f h (n_next n) name
          end
      end
  end.

(** ush_file.c:52-57, scan of one directory; [fp] is the array file_path. *)
Fixpoint find_in_dir (n : node) (fs : list file) (abs fp : bytes)
  : res (option file * bytes) :=
  match fs with
  | [] => Ok (None, fp)
  | f :: r =>
      p <- path_of n ;;
      fp <- ush_utils_join_path p (f_name f) fp ;;
      v <- c_str fp 0 ;;
      if beq v abs then Ok (Some f, fp) else find_in_dir n r abs fp
  end.

(** ush_file.c:51-59, walk over the directory and its following siblings. *)
Fixpoint find_dirs (fuel : nat) (h : list node) (curr : option nat) (abs fp : bytes)
  : res (option file) :=
  match fuel with
  | 0 => Err EDiverge
  | S f =>
      match curr with
      | None => Ok None
      | Some i =>
          n <- getn h i ;;
          '(r, fp) <- find_in_dir n (n_files n) abs fp ;;
          match r with
          | Some x => Ok (Some x)
          | None => find_dirs f h (n_next n) abs fp
          end
      end
  end.

(** ush_file.c:31-62 [ush_file_find_by_name] *)
Definition ush_file_find_by_name (name : bytes) (s : st) : res (option file) :=
  let pm := d_pathmax (o_desc s) in
  let h := hp s in
  c <- find_cmds (S (length h)) h (o_cmds s) name ;;
  match c with
  | Some f => Ok (Some f)
  | None =>
      abs <- abs_path_str pm h (o_cur s) name ;;
      d <- ush_node_get_parent_by_path pm h (o_root s) abs ;;
      find_dirs (S (length h)) h d abs (local_array pm)
  end.

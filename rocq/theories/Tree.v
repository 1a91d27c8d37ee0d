(** * Tree: specification of the mounted directories as an abstract map
    (independent of the pointer structure). *)
From Coq Require Import Arith.
From Verif Require Import Types Spec Node.

(** A mounted directory: where, which node object was given, with which files. *)
Record dirent := mkDir { de_path : dirpath; de_node : nat; de_files : list file }.

(** The mounted directories, the most recently mounted first. *)
Definition fsys := list dirent.

Definition path_dec (p q : dirpath) : {p = q} + {p <> q} := list_eq_dec (list_eq_dec Ascii.ascii_dec) p q.
Definition path_eqb (p q : dirpath) : bool := if path_dec p q then true else false.

Definition dir_at (p : dirpath) (fs : fsys) : option dirent := find (fun d => path_eqb (de_path d) p) fs.
Definition node_at (p : dirpath) (fs : fsys) : option nat := option_map de_node (dir_at p fs).

(** The mounted directory whose path reads [t]; the empty text also names the root. *)
Definition dir_named (t : bytes) (fs : fsys) : option dirent :=
  match t with
  | [] => dir_at [] fs
  | _ => find (fun d => beq (show (de_path d)) t) fs
  end.

(** The text [t] reads as a path directly inside the directory [d]: its path, a '/' (which may
    be left out after "/") and a rest without '/'. *)
Definition inside (d : dirent) (t : bytes) : Prop :=
  exists c, ~ In SL c /\ t <> [SL] /\ (t = show (de_path d) ++ SL :: c \/ (de_path d = [] /\ t = SL :: c)).

(** [q] is directly below [p]. *)
Definition below (p q : dirpath) : bool :=
  match q with [] => false | _ => path_eqb (removelast q) p end.
(** Sub-directories in listing order. *)
Definition children (p : dirpath) (fs : fsys) : fsys := filter (fun d => below p (de_path d)) fs.

(** Mounting node object [id] with files [fl] at [p]. *)
Definition fs_mount (p : dirpath) (id : nat) (fl : list file) (fs : fsys) : status * fsys :=
  match dir_at p fs with
  | Some _ => (ST_NODE_ALREADY_MOUNTED, fs)
  | None =>
      match p with
      | [] => (ST_OK, mkDir p id fl :: fs)
      | _ =>
          match dir_at (removelast p) fs with
          | Some _ => (ST_OK, mkDir p id fl :: fs)
          | None => (ST_NODE_WITHOUT_PARENT, fs)
          end
      end
  end.

Definition fs_remove (p : dirpath) (fs : fsys) : fsys := filter (fun d => negb (path_eqb (de_path d) p)) fs.

Definition fs_unmount (p : dirpath) (fs : fsys) : status * fsys :=
  match dir_at p fs with
  | None => (ST_NODE_NOT_FOUND, fs)
  | Some _ =>
      match children p fs with
      | [] => (ST_OK, fs_remove p fs)
      | _ => (ST_NODE_WITH_CHILDS, fs)
      end
  end.

(** Registered command groups: node object and files, the most recent first. *)
Definition groups := list (nat * list file).
Definition group_remove (id : nat) (gs : groups) : groups := filter (fun g => negb (fst g =? id)) gs.

(** First file of a given name. *)
Definition file_named (name : bytes) (fl : list file) : option file := find (fun f => beq (f_name f) name) fl.

(** What a name denotes: a registered command, otherwise a file of the directory that the
    name, read as a path, lies in. *)
Definition find_file (gs : groups) (fs : fsys) (cwd : dirpath) (name : bytes) : option file :=
  match file_named name (flat_map snd gs) with
  | Some f => Some f
  | None =>
      match resolve_text cwd name with
      | [] => None
      | p =>
          match dir_at (removelast p) fs with
          | Some d => file_named (last p []) (de_files d)
          | None => None
          end
      end
  end.

(** ** Relation to the node objects *)

(** The list of node objects starting at pointer [p], linked by [next], is [ids]. *)
Fixpoint chain (h : list node) (p : option nat) (ids : list nat) : Prop :=
  match ids with
  | [] => p = None
  | i :: r => p = Some i /\ exists nd, nth_error h i = Some nd /\ chain h (n_next nd) r
  end.

(** The node object of a mounted directory. *)
Definition stands (h : list node) (fs : fsys) (d : dirent) : Prop :=
  exists nd, nth_error h (de_node d) = Some nd /\
    n_path nd = Some (show (de_path d)) /\ n_files nd = de_files d /\
    n_parent nd = match de_path d with [] => None | p => node_at (removelast p) fs end /\
    chain h (n_children nd) (map de_node (children (de_path d) fs)).

Definition fs_ok (fs : fsys) : Prop :=
  Forall (fun d => path_ok (de_path d)) fs /\
  NoDup (map de_path fs) /\ NoDup (map de_node fs) /\
  forall d, In d fs -> de_path d <> [] -> In (removelast (de_path d)) (map de_path fs).

(** The node objects reached from [root] are exactly the mounted directories. *)
Definition rep (h : list node) (root : option nat) (fs : fsys) : Prop :=
  fs_ok fs /\ (forall d, In d fs -> stands h fs d) /\
  chain h root (match node_at [] fs with Some i => [i] | None => [] end).

(** The command groups. *)
Definition rep_groups (h : list node) (p : option nat) (gs : groups) : Prop :=
  NoDup (map fst gs) /\ chain h p (map fst gs) /\
  forall i fl, In (i, fl) gs -> exists nd, nth_error h i = Some nd /\ n_files nd = fl.

(** ** Histories *)

(** What the shell knows: directories, command groups, and the current directory
    ([None] when it was never set or has been unmounted). *)
Record world := mkWorld { w_fs : fsys; w_groups : groups; w_cwd : option dirpath }.

(** Calls of the API that change the tree or the commands. *)
Inductive treeop :=
| TMount (p : dirpath) (id : nat) (fl : list file)  (* ush_node_mount(self, "/..", node, files, n) *)
| TUnmount (t : bytes)                              (* ush_node_unmount(self, t) *)
| TAdd (id : nat) (fl : list file)                  (* ush_commands_add(self, node, files, n) *)
| TRemove (id : nat)                                (* ush_commands_remove(self, node) *)
| TChdir (t : bytes).                               (* ush_node_set_current_dir(self, t) *)

(** Where relative paths start. *)
Definition here (w : world) : dirpath := match w_cwd w with Some p => p | None => [] end.

Definition is_status_ok (x : status) : bool := match x with ST_OK => true | _ => false end.

(** The effect a user expects. *)
Definition spec_op (o : treeop) (w : world) : status * world :=
  match o with
  | TMount p id fl =>
      let (r, fs) := fs_mount p id fl (w_fs w) in
      (r, mkWorld fs (w_groups w) (match p with [] => if is_status_ok r then Some [] else w_cwd w | _ => w_cwd w end))
  | TUnmount t =>
      match dir_named t (w_fs w) with
      | None => (ST_NODE_NOT_FOUND, w)
      | Some d =>
          let (r, fs) := fs_unmount (de_path d) (w_fs w) in
          (r, mkWorld fs (w_groups w)
                (match w_cwd w with
                 | Some p => if is_status_ok r && path_eqb p (de_path d) then None else Some p
                 | None => None
                 end))
      end
  | TAdd id fl => (ST_OK, mkWorld (w_fs w) ((id, fl) :: w_groups w) (w_cwd w))
  | TRemove id =>
      if in_dec Nat.eq_dec id (map fst (w_groups w))
      then (ST_OK, mkWorld (w_fs w) (group_remove id (w_groups w)) (w_cwd w))
      else (ST_NODE_NOT_FOUND, w)
  | TChdir t =>
      match t with
      | [] => (ST_NODE_NOT_FOUND, w)
      | _ =>
          match dir_named (show (resolve_text (here w) t)) (w_fs w) with
          | Some d => (ST_OK, mkWorld (w_fs w) (w_groups w) (Some (de_path d)))
          | None => (ST_NODE_NOT_FOUND, w)
          end
      end
  end.

(** Node object [i] is in use. *)
Definition used (w : world) (i : nat) : Prop := In i (map de_node (w_fs w)) \/ In i (map fst (w_groups w)).

(** Correct use of the API with node objects [own] and path_max_length [pm]: an object
    is handed over only while it is not in use, and texts fit in path_max_length. *)
Definition allowed (pm : nat) (own : list nat) (w : world) (o : treeop) : Prop :=
  match o with
  | TMount p id fl => path_ok p /\ length (show p) < pm /\ In id own /\ ~ used w id
  | TUnmount t => ~ In NUL t /\ length t < pm
  | TAdd id fl => fl <> [] /\ In id own /\ ~ used w id
  | TRemove id => True
  | TChdir t => ~ In NUL t /\ length (full_text (here w) t) < pm /\ (w_cwd w = None -> exists r, t = SL :: r)
  end.

Fixpoint spec_ops (os : list treeop) (w : world) : list status * world :=
  match os with
  | [] => ([], w)
  | o :: r => let (x, w1) := spec_op o w in let (xs, w2) := spec_ops r w1 in (x :: xs, w2)
  end.
Fixpoint all_allowed (pm : nat) (own : list nat) (os : list treeop) (w : world) : Prop :=
  match os with
  | [] => True
  | o :: r => allowed pm own w o /\ all_allowed pm own r (snd (spec_op o w))
  end.

(** The calls on the model, one after the other. *)
Definition do_op (o : treeop) (s : st) : res (status * st) :=
  match o with
  | TMount p id fl => ush_node_mount (show p) id fl s
  | TUnmount t => ush_node_unmount t s
  | TAdd id fl => ush_commands_add id fl s
  | TRemove id => ush_commands_remove id s
  | TChdir t => ush_node_set_current_dir t s
  end.
Fixpoint do_ops (os : list treeop) (s : st) : res (list status * st) :=
  match os with
  | [] => Ok ([], s)
  | o :: r => '(x, s1) <- do_op o s ;; '(xs, s2) <- do_ops r s1 ;; Ok (x :: xs, s2)
  end.

(** The shell [s] knows the world [w], using only node objects of [own]; unused
    objects of [own] have no children. *)
Definition knows (own : list nat) (s : st) (w : world) : Prop :=
  rep (hp s) (o_root s) (w_fs w) /\ rep_groups (hp s) (o_cmds s) (w_groups w) /\
  (forall i, In i (map de_node (w_fs w)) -> ~ In i (map fst (w_groups w))) /\
  (forall i, used w i -> In i own) /\
  (forall i, In i own -> exists nd, nth_error (hp s) i = Some nd /\
     (~ In i (map de_node (w_fs w)) -> n_children nd = None)) /\
  match w_cwd w with
  | Some p => exists d, dir_at p (w_fs w) = Some d /\ o_cur s = Some (de_node d)
  | None => True
  end.

(** Only the tree, the command list and the current directory of the shell, and node
    objects of [own], may differ. *)
Definition only_tree (own : list nat) (s s' : st) : Prop :=
  s' = set_cur (o_cur s') (set_cmds (o_cmds s') (set_root (o_root s') (set_hp (hp s') s))) /\
  length (hp s') = length (hp s) /\
  forall i, ~ In i own -> nth_error (hp s') i = nth_error (hp s) i.

(** ** The texts built while a file is looked for *)
Fixpoint after (i : nat) (ds : fsys) : fsys :=
  match ds with [] => [] | d :: r => if de_node d =? i then r else after i r end.
(** Directories listed after [d] beside it. *)
Definition siblings_after (d : dirent) (fs : fsys) : fsys :=
  match de_path d with [] => [] | p => after (de_node d) (children (removelast p) fs) end.
(** Full path of each file. *)
Definition joins (ds : fsys) : list (bytes * file) :=
  flat_map (fun d => map (fun f => (slashed (de_path d ++ [f_name f]), f)) (de_files d)) ds.

(** Names without '/' and NUL, short enough to be joined to their directory. *)
Definition names_ok (pm : nat) (fs : fsys) : Prop :=
  forall d f, In d fs -> In f (de_files d) -> plain_comp (f_name f) /\ length (slashed (de_path d ++ [f_name f])) < pm.

(** The outcome of comparing the paths of the files of [ds], in order, with [t]: the
    first match, unless a path before it does not fit in [pm] bytes. *)
Definition scan (pm : nat) (t : bytes) (ds : fsys) : res (option file) :=
  match find (fun j => (pm <=? length (fst j)) || beq (fst j) t) (joins ds) with
  | None => Ok None
  | Some (u, f) => if pm <=? length u then Err EOob else Ok (Some f)
  end.


(** * Multi: several shells in one program.

    All shells share the memory of node objects; each has an object, a descriptor and
    buffers of its own, and its application hands it only node objects from its own set.
    Definitions only; used in the statements of C50. *)
From Verif Require Import Shell.

(** What the application does with one shell: initialise it, service it or call its API,
    deinitialise it. *)
Inductive deed :=
| Inits (d : desc) (ib ob : bytes)
| Uses (o : op)
| Deinits.

Definition perform (x : deed) (s : st) : res st :=
  match x with
  | Inits d ib ob => ush_init d ib ob s
  | Uses o => step o s
  | Deinits => ush_deinit s
  end.
Fixpoint performs (l : list deed) (s : st) : res st :=
  match l with
  | [] => Ok s
  | x :: r => s <- perform x s ;; performs r s
  end.

(** Every node object handed over is one of [own]. *)
Definition hands (own : list nat) (a : action) : Prop :=
  match a with
  | AMount _ id _ | ACmdAdd id _ => In id own
  | _ => True
  end.
Definition env_hands (own : list nat) (e : env) : Prop :=
  (forall n f a, Forall (hands own) (e_exec e n f a)) /\
  (forall n f d, Forall (hands own) (e_set e n f d)) /\
  (forall n f, Forall (hands own) (g_calls (e_get e n f))) /\
  (forall n f, Forall (hands own) (e_proc e n f)).
Definition deed_hands (own : list nat) (x : deed) : Prop :=
  match x with
  | Uses (OpService i) => env_hands own (io_env i)
  | Uses (OpApi a) => hands own a
  | _ => True
  end.

(** The pointers of the shell object, and those inside the node objects [own], lead only
    to node objects of [own]. *)
Definition within (own : list nat) (p : option nat) : Prop :=
  match p with Some i => In i own | None => True end.
Definition apart (own : list nat) (s : st) : Prop :=
  within own (o_cmds s) /\ within own (o_root s) /\ within own (o_cur s) /\ within own (o_pnode s) /\
  within own (o_pchild s) /\ In (o_buildin s) own /\
  forall i nd, In i own -> nth_error (hp s) i = Some nd ->
    within own (n_parent nd) /\ within own (n_children nd) /\ within own (n_next nd).

(** A program: the memory of node objects and the shells (the memory inside a shell's
    state is the program's). *)
Record program := mkProg { p_mem : list node; p_shells : list st }.
(** Shell number [k] as the program sees it. *)
Definition shell_at (p : program) (k : nat) : option st := option_map (set_hp (p_mem p)) (nth_error (p_shells p) k).

(** The application does [x] with shell [k]. *)
Definition turn (p : program) (k : nat) (x : deed) : res program :=
  match shell_at p k with
  | None => Err ENull
  | Some s => s' <- perform x s ;; Ok (mkProg (hp s') (upd (p_shells p) k s'))
  end.
Fixpoint turns (l : list (nat * deed)) (p : program) : res program :=
  match l with
  | [] => Ok p
  | (k, x) :: r => p <- turn p k x ;; turns r p
  end.

(** What is done with shell [k], in order. *)
Fixpoint share (k : nat) (l : list (nat * deed)) : list deed :=
  match l with
  | [] => []
  | (j, x) :: r => if j =? k then x :: share k r else share k r
  end.

(** Two states are the same shell in the same situation: everything in the object, the
    buffers and everything that has happened to it so far is equal, and so are the node
    objects [own]; the rest of the memory may differ. *)
Definition same_shell (own : list nat) (s s' : st) : Prop :=
  s' = set_hp (hp s') s /\ length (hp s') = length (hp s) /\
  forall i, In i own -> nth_error (hp s') i = nth_error (hp s) i.

(** Each shell of the program keeps to its own node objects, disjoint from the others'. *)
Definition separate (owns : nat -> list nat) (p : program) : Prop :=
  (forall k s, shell_at p k = Some s -> apart (owns k) s) /\
  (forall j k i, j <> k -> In i (owns j) -> ~ In i (owns k)).

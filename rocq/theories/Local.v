(** * Local: what a change of the tree may change (C85). *)
From Verif Require Import Shell Spec Tree.

(** The files of the command group registered with the node object [id]. *)
Definition group_files (id : nat) (gs : groups) : list file := flat_map snd (filter (fun g => fst g =? id) gs).

(** [m] is what the name [n] means before the call [o], [m'] what it means afterwards. *)
Definition local_change (o : treeop) (w : world) (n : bytes) (m m' : option file) : Prop :=
  match o with
  | TMount p _ fl => m' = m \/ (m = None /\ exists f, m' = Some f /\ In f fl)
  | TUnmount t => m' = m \/ (m' = None /\ exists d f, dir_named t (w_fs w) = Some d /\ m = Some f /\ In f (de_files d))
  | TAdd _ fl => m' = match file_named n fl with Some f => Some f | None => m end
  | TRemove id => file_named n (group_files id (w_groups w)) = None -> m' = m
  | TChdir _ => (exists r, n = SL :: r) \/ file_named n (flat_map snd (w_groups w)) <> None -> m' = m
  end.

(** The name can be looked up in the world [w] within path_max_length. *)
Definition can_look (pm : nat) (w : world) (n : bytes) : Prop :=
  (w_cwd w = None -> exists r, n = SL :: r) /\ names_ok pm (w_fs w) /\ length (full_text (here w) n) < pm.
